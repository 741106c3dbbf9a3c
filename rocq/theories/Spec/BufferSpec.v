(* What sections and concatenations of byte strings are.  Independent of the model. *)
From Verif.Base Require Import Bytes.
Local Open Scope N_scope.

(* the largest buffer the library creates: include/wickrcrypto/buffer.h MAX_BUFFER_SIZE *)
Definition library_limit : N := 2147483631.
Definition byte_at (b : bytes) (i : N) : option byte := nth_error b (N.to_nat i).

(* the range [start, start+len) is non-empty, inside b and inside the size limit;
   integers, no wrap-around *)
Definition section_fits (b : bytes) (start len : N) : Prop :=
  0 < len /\ len < library_limit /\ start + len <= library_limit /\ start + len <= blen b.

(* r is the section [start, start+len) of b *)
Definition is_section (b : bytes) (start len : N) (r : bytes) : Prop :=
  blen r = len /\ forall i, i < len -> byte_at r i = byte_at b (start + i).

(* b' is b with [start, start+len) replaced by the first len bytes of src *)
Definition is_update (b : bytes) (start len : N) (src b' : bytes) : Prop :=
  blen b' = blen b /\
  forall i, byte_at b' i =
    if (start <=? i) && (i <? start + len) then byte_at src (i - start) else byte_at b i.

(* the bytes of a list of optional buffers, NULL contributing nothing *)
Fixpoint joined (l : list (option bytes)) : bytes :=
  match l with
  | [] => []
  | Some b :: l' => b ++ joined l'
  | None :: l' => joined l'
  end.
Definition within_limit (n : N) : Prop := 0 < n <= library_limit.
