(* Base: bytes, fixed-width integers, little-endian encodings and list slices.
   Nothing in this file models a function of the repository; it is vocabulary. *)
From Coq Require Export List NArith ZArith Lia Bool.
From Coq Require Export Strings.Byte.
From Coq Require Import ZifyBool ZifyNat ZifyN.
Export ListNotations.
Ltac Zify.zify_post_hook ::= Z.div_mod_to_equations.
Global Arguments N.add : simpl never.
Global Arguments N.sub : simpl never.
Global Arguments N.mul : simpl never.
Global Arguments N.div : simpl never.
Global Arguments N.modulo : simpl never.
Global Arguments N.pow : simpl never.
Global Arguments N.of_nat : simpl never.
Global Arguments N.to_nat : simpl never.
Global Arguments N.shiftl : simpl never.
Global Arguments N.shiftr : simpl never.
Global Arguments N.land : simpl never.
Global Arguments N.lor : simpl never.
Global Arguments N.leb : simpl never.
Global Arguments N.ltb : simpl never.
Global Arguments N.eqb : simpl never.

Notation bytes := (list byte).

(* uint8_t value of a byte *)
Definition b2n (b : byte) : N := Byte.to_N b.
(* conversion of an integer to uint8_t: reduction modulo 256 *)
Definition n2b (n : N) : byte :=
  match Byte.of_N (n mod 256) with Some b => b | None => x00 end.

(* length of a byte string as a size_t value *)
Definition blen (b : bytes) : N := N.of_nat (length b).

(* arithmetic on uint64_t / size_t *)
Definition two64 : N := 18446744073709551616.
Definition wadd64 (a b : N) : N := (a + b) mod two64.
Definition wsub64 (a b : N) : N := (a + two64 - b mod two64) mod two64.
Definition two32 : N := 4294967296.

(* the part [start, start+len) of a list *)
Definition slice {A} (l : list A) (start len : nat) : list A :=
  firstn len (skipn start l).

(* little-endian encoding of n on k bytes, and its inverse *)
Fixpoint le_enc (k : nat) (n : N) : bytes :=
  match k with
  | O => []
  | S k' => n2b n :: le_enc k' (n / 256)
  end.
Fixpoint le_dec (l : bytes) : N :=
  match l with
  | [] => 0%N
  | b :: l' => (b2n b + 256 * le_dec l')%N
  end.

Fixpoint beqb (a b : bytes) : bool :=
  match a, b with
  | [], [] => true
  | x :: a', y :: b' => Byte.eqb x y && beqb a' b'
  | _, _ => false
  end.

(* Outcome of a C function: a value, a NULL / false / failure return, or undefined behaviour *)
Inductive res (A : Type) : Type :=
| Val (a : A)
| Null
| UB.
Arguments Val {A} a.
Arguments Null {A}.
Arguments UB {A}.

Definition rbind {A B} (x : res A) (f : A -> res B) : res B :=
  match x with Val a => f a | Null => Null | UB => UB end.
Definition lift {A} (x : option A) : res A :=
  match x with Some a => Val a | None => Null end.
Definition obind {A B} (x : option A) (f : A -> option B) : option B :=
  match x with Some a => f a | None => None end.
Declare Scope res_scope.
Notation "x <- e ;; k" := (rbind e (fun x => k))
  (at level 61, e at next level, right associativity) : res_scope.
Notation "x <~ e ;; k" := (rbind (lift e) (fun x => k))
  (at level 61, e at next level, right associativity) : res_scope.
Declare Scope opt_scope.
Notation "x <- e ;; k" := (obind e (fun x => k))
  (at level 61, e at next level, right associativity) : opt_scope.
Notation "'guard' c ;; k" := (if c then k else None)
  (at level 61, c at next level, right associativity) : opt_scope.
Notation "'guard' c ;; k" := (if c then k else Null)
  (at level 61, c at next level, right associativity) : res_scope.
Notation "'assert' c ;; k" := (if c then k else UB)
  (at level 61, c at next level, right associativity) : res_scope.

(* read of byte i through a pointer to the object b *)
Definition rd (b : bytes) (i : nat) : res byte :=
  match nth_error b i with Some x => Val x | None => UB end.
