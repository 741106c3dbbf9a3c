(* What joining and cutting buffers gives.  Independent of the model of buffer.c; the obligations
   in terms of memory are those of Spec/HeapEngineSpec.v. *)
From Verif.Base Require Import Bytes.
From Verif.Spec Require Import BufferSpec.
Local Open Scope N_scope.

(* a buffer of these bytes, if the library makes buffers of this size *)
Definition as_buffer (b : bytes) : res bytes := if (0 <? blen b) && (blen b <=? library_limit) then Val b else Null.
(* two buffers, both of which have to be there *)
Definition both_joined (a b : option bytes) : res bytes :=
  match a, b with Some x, Some y => as_buffer (x ++ y) | _, _ => Null end.
(* any number of buffers, some of which may be missing *)
Definition all_joined (l : list (option bytes)) : res bytes := as_buffer (joined l).
(* the bytes from [start] on, [len] of them, if there are so many *)
Definition cut_out (source : option bytes) (start len : N) : res bytes :=
  match source with
  | Some b => if (0 <? len) && (len <? library_limit) && (start + len <=? library_limit) && (start + len <=? blen b)
              then Val (firstn (N.to_nat len) (skipn (N.to_nat start) b)) else Null
  | None => Null
  end.
(* sizes are of type size_t *)
Definition size_t_ok (n : N) : Prop := n < two64.
Definition sized (o : option bytes) : Prop := match o with Some b => size_t_ok (blen b) | None => True end.
