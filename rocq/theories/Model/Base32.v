(* Model of src/wickrcrypto/src/b32.c *)
From Coq Require Import Strings.String.
From Verif.Base Require Import Bytes.
From Verif.Model Require Import Buffer.
Local Open Scope N_scope.
Local Open Scope res_scope.

Definition SIZE_MAX : N := 18446744073709551615.

(* b32.c:6 alphabet *)
Definition b32_alphabet : bytes := list_byte_of_string "0123456789ABCDEFGHJKMNPQRSTVWXYZ".

(* b32.c:9-23 *)
Definition b32_encode_length (n : N) : N :=
  if SIZE_MAX / 8 <=? n then 0
  else let bits := (n * 8) mod two64 in
       if 0 <? bits mod 5 then bits / 5 + 1 else bits / 5.
(* b32.c:26-36 *)
Definition b32_decode_length (n : N) : N :=
  if SIZE_MAX / 5 <=? n then 0
  else ((n * 5) mod two64) / 8.

(* b32.c:40-57, in place, a failed check returns false *)
Fixpoint b32_encode_map (l : bytes) : option bytes :=
  match l with
  | [] => Some []
  | c :: l' =>
      if 32 <=? b2n c then None
      else match b32_encode_map l' with
           | Some r => Some (nth (N.to_nat (b2n c)) b32_alphabet x00 :: r)
           | None => None
           end
  end.

(* b32.c:59-67: rmap, built by 32 stores into an array of 255s; later stores win *)
Fixpoint b32_rmap_from (l : bytes) (i : N) (c : byte) : N :=
  match l with
  | [] => 255
  | a :: l' =>
      let later := b32_rmap_from l' (i + 1) c in
      if Byte.eqb a c then (if later =? 255 then i else later) else later
  end.
Definition b32_rmap (c : byte) : N := b32_rmap_from b32_alphabet 0 c.

(* b32.c:71-90 *)
Fixpoint b32_unmap (l : bytes) : option bytes :=
  match l with
  | [] => Some []
  | c :: l' =>
      let m := b32_rmap c in
      if m =? 255 then None
      else match b32_unmap l' with Some r => Some (n2b m :: r) | None => None end
  end.

(* b32.c:95-104: pack 5 bytes into a uint64_t *)
Definition b32_pack (shift : N) (l : bytes) : N :=
  fold_left (fun acc b => N.lor ((acc * 2 ^ shift) mod two64) (b2n b)) l 0.

(* b32.c:107-120 for j = j, j-1, ..., 0: shift left then right by 24 + (7-j)*5, take 5 bits *)
Fixpoint b32_emit (j : nat) (buffer : N) : option bytes :=
  let s := 24 + (7 - N.of_nat j) * 5 in
  let buffer' := ((buffer * 2 ^ s) mod two64) / 2 ^ s in
  let c := n2b (buffer' / 2 ^ (N.of_nat j * 5)) in
  if 32 <=? b2n c then None
  else match j with
       | O => Some [c]
       | S j' => match b32_emit j' buffer' with Some r => Some (c :: r) | None => None end
       end.
(* b32.c:92-123; in5 must point to 5 readable bytes *)
Definition b32_encode_block (in5 : bytes) : option bytes := b32_emit 7 (b32_pack 8 in5).

(* b32.c:125-150 *)
Definition b32_decode_block (in8 : bytes) : option bytes :=
  if existsb (fun c => 32 <=? b2n c) in8 then None
  else let buffer := b32_pack 5 in8 in
       Some (map (fun j => n2b (buffer / 2 ^ (j * 8))) [4; 3; 2; 1; 0]).

(* b32.c:164-171: the loop over whole blocks; returns what was written and the unread input *)
Fixpoint b32_blocks (blk : bytes -> option bytes) (isz : nat) (d : nat) (inp : bytes)
  : res (bytes * bytes) :=
  match d with
  | O => Val ([], inp)
  | S d' =>
      b5 <- memread inp 0 (N.of_nat isz) ;;
      o <~ blk b5 ;;
      r <- b32_blocks blk isz d' (skipn isz inp) ;;
      Val ((o ++ fst r)%list, snd r)
  end.

(* b32.c:153-187 / 189-221: blk is the block function, isz its input size, osz its output
   size, tail_len the output length for the remainder.  out is the output allocation. *)
Definition b32_code (blk : bytes -> option bytes) (isz : nat) (tail_len : N -> N)
  (inp : bytes) (out : bytes) : res bytes :=
  let n := length inp in
  let d := Nat.div n isz in
  let r := Nat.modulo n isz in
  w <- b32_blocks blk isz d inp ;;
  let padd := (snd w ++ repeat x00 (isz - r))%list in
  o <~ blk padd ;;
  t <- memread o 0 (tail_len (N.of_nat r)) ;;
  let written := (fst w ++ t)%list in
  memwrite out 0 written (blen written).

(* b32.c:223-247 *)
Definition base32_encode (buffer : option bytes) : res bytes :=
  match buffer with
  | None => Null
  | Some d =>
      out <~ buffer_create_empty_zero (b32_encode_length (blen d)) ;;
      enc <- b32_code b32_encode_block 5 b32_encode_length d out ;;
      lift (b32_encode_map enc)
  end.

(* b32.c:249-292; the allocation has one more byte than the length *)
Definition base32_decode (buffer : option bytes) : res bytes :=
  match buffer with
  | None => Null
  | Some t =>
      c <~ buffer_copy (Some t) ;;
      u <~ b32_unmap c ;;
      let dl := b32_decode_length (blen u) in
      if dl =? 0 then Null
      else
        out <~ buffer_create_empty_zero (wadd64 dl 1) ;;
        mem <- b32_code b32_decode_block 8 b32_decode_length u out ;;
        Val (firstn (N.to_nat dl) mem)
  end.
