(* RFC 4648 style encodings, stated on bits.  Independent of the model. *)
From Coq Require Import Strings.String.
From Verif.Base Require Import Bytes.

(* the eight bits of a byte, most significant first *)
Definition bits_of_byte (b : byte) : list bool :=
  map (N.testbit (b2n b)) [7; 6; 5; 4; 3; 2; 1; 0]%N.
Definition bits (d : bytes) : list bool := flat_map bits_of_byte d.
(* number denoted by bits, most significant first *)
Definition bits_val (l : list bool) : N :=
  fold_left (fun acc (b : bool) => (2 * acc + if b then 1 else 0)%N) l 0%N.
(* cut into groups of k bits; a short last group is filled with zero bits on the right *)
Fixpoint groups (fuel k : nat) (l : list bool) : list (list bool) :=
  match fuel, l with
  | _, [] => []
  | O, _ => []
  | S f, _ => firstn k (l ++ repeat false k) :: groups f k (skipn k l)
  end.
(* the characters of an alphabet selected by the groups *)
Definition spec_chars (alphabet : bytes) (k : nat) (d : bytes) : bytes :=
  map (fun g => nth (N.to_nat (bits_val g)) alphabet x00) (groups (length (bits d)) k (bits d)).

Definition rfc4648_alphabet : bytes :=
  list_byte_of_string "ABCDEFGHIJKLMNOPQRSTUVWXYZabcdefghijklmnopqrstuvwxyz0123456789+/".
(* RFC 4648 section 4: sextets, then '=' up to a multiple of four characters *)
Definition spec_base64 (d : bytes) : bytes :=
  let cs := spec_chars rfc4648_alphabet 6 d in
  cs ++ repeat (n2b 61) (Nat.modulo (4 - Nat.modulo (length cs) 4) 4).

Definition crockford_alphabet : bytes :=
  list_byte_of_string "0123456789ABCDEFGHJKMNPQRSTVWXYZ".
(* quintets, no padding characters *)
Definition spec_base32 (d : bytes) : bytes := spec_chars crockford_alphabet 5 d.

Definition hex_alphabet : bytes := list_byte_of_string "0123456789abcdef".
(* nibbles, no padding (8 is a multiple of 4) *)
Definition spec_hex (d : bytes) : bytes := spec_chars hex_alphabet 4 d.

(* the value of a hexadecimal digit, either case *)
Fixpoint index_of (c : byte) (l : bytes) (i : N) : option N :=
  match l with
  | [] => None
  | a :: l' => if Byte.eqb a c then Some i else index_of c l' (i + 1)%N
  end.
Definition hex_digit (c : byte) : option N :=
  match index_of c (list_byte_of_string "0123456789abcdef") 0 with
  | Some v => Some v
  | None => index_of c (list_byte_of_string "0123456789ABCDEF") 0
  end.
(* the bytes denoted by a text of hexadecimal digit pairs; None if it is not one *)
Fixpoint hex_meaning (s : bytes) : option bytes :=
  match s with
  | [] => Some []
  | a :: b :: s' =>
      match hex_digit a, hex_digit b, hex_meaning s' with
      | Some h, Some l, Some r => Some (n2b (16 * h + l) :: r)
      | _, _, _ => None
      end
  | _ => None
  end.

(* no NUL inside *)
Definition no_nul (s : bytes) : Prop := ~ In x00 s.
(* plain ASCII *)
Definition ascii (s : bytes) : Prop := Forall (fun c => (b2n c < 128)%N) s.
