(* What the copy and destroy functions owe their callers, in terms of memory.
   [fails] says which allocations fail; every statement is for every such schedule. *)
From Verif.Base Require Import Bytes.
From Verif.Model Require Import Buffer Heap.
From Verif.Spec Require Import CopySpec.

(* the allocator never hands out a block in use *)
Definition heap_ok (h : heap) : Prop := forall b, next h <= b -> mem h b = None.
(* these blocks are distinct, live, and hold these bytes *)
Definition in_memory (h : heap) (cs : list cell) : Prop :=
  NoDup (map fst cs) /\ forall b c, In (b, c) cs -> mem h b = Some c.
(* nothing was allocated for good, nothing released, nothing overwritten *)
Definition same_memory (h h' : heap) : Prop := heap_ok h' /\ forall b, mem h' b = mem h b.
(* [h'] is [h] with exactly these new blocks, none of which was in use before *)
Definition grown (h : heap) (cs : list cell) (h' : heap) : Prop :=
  heap_ok h' /\ in_memory h' cs /\ (forall b, In b (map fst cs) -> mem h b = None) /\ (forall b, ~ In b (map fst cs) -> mem h' b = mem h b).
(* [h'] is [h] without exactly these blocks *)
Definition shrunk (h : heap) (cs : list cell) (h' : heap) : Prop :=
  heap_ok h' /\ (forall b, In b (map fst cs) -> mem h' b = None) /\ (forall b, ~ In b (map fst cs) -> mem h' b = mem h b).

(* A secret is a byte string the caller cares about (a private key, a message, ...), not
   the empty string nor zeros; [public] are strings the object keeps that are not secret. *)
Definition zeros (n : nat) : bytes := repeat x00 n.
Definition keeps_secret (secret : bytes -> Prop) (public : list bytes) : Prop :=
  (forall n, ~ secret (zeros n)) /\ forall c, In c public -> ~ secret c.
(* every block released on the way from [h] to [h'] held no secret when it was released *)
Definition wiped (secret : bytes -> Prop) (h h' : heap) : Prop :=
  exists gone, freed h' = gone ++ freed h /\ forall b c, In (b, c) gone -> ~ secret c.

Definition some_failure (fails : schedule) : Prop := exists n ty, fails n ty = true.

(* A copy function should, whichever allocations fail:
   - give NULL for NULL, without effect;
   - otherwise give NULL, memory being as before, and then, if the object is one the library
     makes, only because some allocation has failed;
   - or give an object with the same value in new blocks of its own, everything else in memory
     being as before;
   - have no undefined behaviour, and release no block that holds a secret. *)
Definition copies_safely {T V} (cells : T -> list cell) (value : T -> V) (made : V -> Prop) (public : T -> list bytes)
  (copy : option T -> H (option T)) : Prop :=
  (forall fails h, copy None fails h = Some (None, h)) /\
  forall secret fails h t, heap_ok h -> in_memory h (cells t) -> keeps_secret secret (public t) ->
    match copy (Some t) fails h with
    | None => False
    | Some (None, h') => same_memory h h' /\ wiped secret h h' /\ (made (value t) -> some_failure fails)
    | Some (Some t', h') => value t' = value t /\ grown h (cells t') h' /\ wiped secret h h'
    end.
(* What holds of all of them.  [keep] says what a copy is to have of the value: of most kinds of
   object all of it.  The behaviour is undefined only if one of the allocations whose
   result the function writes to untested has failed.  Of a [leaky] function some blocks may
   stay behind, and a [lossy] one may give an object that lacks something (its value is then
   related by [rel] to that of the original); for an object the library makes, both only after
   some allocation has failed. *)
Definition copies_in_memory {T V} (cells : T -> list cell) (value : T -> V) (keep : V -> V) (rel : V -> V -> Prop)
  (made : V -> Prop) (public : T -> list bytes) (untested : list ctype) (leaky lossy : bool) (copy : option T -> H (option T)) : Prop :=
  (forall fails h, copy None fails h = Some (None, h)) /\
  forall secret fails h t, heap_ok h -> in_memory h (cells t) -> keeps_secret secret (public t) ->
    let excused := made (value t) -> some_failure fails in
    match copy (Some t) fails h with
    | None => exists n ty, In ty untested /\ fails n ty = true
    | Some (None, h') =>
        exists leaked, (leaked = [] \/ leaky = true /\ excused) /\ grown h leaked h' /\ wiped secret h h' /\ excused
    | Some (Some t', h') =>
        exists leaked, (leaked = [] \/ leaky = true /\ excused) /\
          (value t' = keep (value t) \/ (lossy = true /\ excused) /\ rel (value t) (value t')) /\
          grown h (leaked ++ cells t') h' /\ wiped secret h h'
    end.

(* A destroy function releases exactly the blocks of the object, each once, and leaves no
   secret in them. *)
Definition destroys_in_memory {T} (cells : T -> list cell) (public : T -> list bytes) (destroy : option T -> H unit) : Prop :=
  (forall fails h, destroy None fails h = Some (tt, h)) /\
  forall secret fails h t, heap_ok h -> in_memory h (cells t) -> keeps_secret secret (public t) ->
    exists h', destroy (Some t) fails h = Some (tt, h') /\ shrunk h (cells t) h' /\ wiped secret h h'.

Notation whole := (fun v => v).

(* With enough memory the copy of an object the library makes succeeds and has the value it
   should; it is independent of the original: releasing the copy restores memory as it was, and
   releasing the original leaves the copy. *)
Definition never : schedule := fun _ _ => false.
Definition independent {T V} (cells : T -> list cell) (value : T -> V) (keep : V -> V) (made : V -> Prop)
  (copy : option T -> H (option T)) (destroy : option T -> H unit) : Prop :=
  forall h t, heap_ok h -> in_memory h (cells t) -> made (value t) ->
    exists t' h1, copy (Some t) never h = Some (Some t', h1) /\ value t' = keep (value t) /\ in_memory h1 (cells t) /\
      (exists h2, destroy (Some t') never h1 = Some (tt, h2) /\ same_memory h h2) /\
      (exists h3, destroy (Some t) never h1 = Some (tt, h3) /\ in_memory h3 (cells t') /\
        forall b, ~ In b (map fst (cells t)) -> ~ In b (map fst (cells t')) -> mem h3 b = mem h b).

(* a list with possibly missing items, of which the allocator can hold the pointers *)
Definition made_items {V} (made : V -> Prop) (l : list (option V)) : Prop :=
  Forall (if_set made) l /\ (8 * N.of_nat (length l) <= MAX_BUFFER_SIZE)%N.
(* how a copy relates to the original, part by part *)
Inductive part_rel {V} (rel : V -> V -> Prop) : option V -> option V -> Prop :=
| part_none : part_rel rel None None
| part_some v v' : rel v v' -> part_rel rel (Some v) (Some v').

(* what can go wrong with the copy of an object the library makes *)
Definition crashes {T V} (cells : T -> list cell) (value : T -> V) (made : V -> Prop) (copy : option T -> H (option T)) : Prop :=
  exists fails h t, heap_ok h /\ in_memory h (cells t) /\ made (value t) /\ copy (Some t) fails h = None.
Definition leaks {T V} (cells : T -> list cell) (value : T -> V) (made : V -> Prop) (copy : option T -> H (option T)) : Prop :=
  exists fails h t h', heap_ok h /\ in_memory h (cells t) /\ made (value t) /\ copy (Some t) fails h = Some (None, h') /\
    exists b, mem h b = None /\ mem h' b <> None.
Definition drops {T V} (cells : T -> list cell) (value : T -> V) (made : V -> Prop) (copy : option T -> H (option T)) : Prop :=
  exists fails h t t' h', heap_ok h /\ in_memory h (cells t) /\ made (value t) /\ copy (Some t) fails h = Some (Some t', h') /\ value t' <> value t.
