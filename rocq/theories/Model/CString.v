(* C strings: a wickr_buffer_t whose [bytes] pointer leads to an allocation that may be
   longer than the [length] field says (util.c relies on a NUL after the data). *)
From Verif.Base Require Import Bytes.

Record cbuf := { cb_mem : bytes;   (* the whole allocation behind ->bytes *)
                 cb_len : N }.     (* ->length *)

(* a buffer whose allocation is exactly its length *)
Definition cbuf_of (b : bytes) : cbuf := {| cb_mem := b; cb_len := blen b |}.
(* the bytes a user of ->bytes / ->length sees *)
Definition cb_data (c : cbuf) : bytes := firstn (N.to_nat (cb_len c)) (cb_mem c).

Definition NUL : byte := x00.
(* strlen: reading past the allocation is undefined *)
Fixpoint strlen (m : bytes) : res N :=
  match m with
  | [] => UB
  | c :: m' => if Byte.eqb c NUL then Val 0%N
               else match strlen m' with Val n => Val (1 + n)%N | Null => Null | UB => UB end
  end.

(* store / read-modify-write of one byte of an allocation *)
Definition put (m : bytes) (i : nat) (v : byte) : res bytes :=
  if Nat.ltb i (length m) then Val (firstn i m ++ v :: skipn (S i) m) else UB.
Definition put_or (m : bytes) (i : nat) (v : byte) : res bytes :=
  match nth_error m i with
  | Some o => put m i (n2b (N.lor (b2n o) (b2n v)))
  | None => UB
  end.
