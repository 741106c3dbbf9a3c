(* Computations that draw randomness.  The counter says how many draws were made; the
   outcome of draw number i is a parameter of the model (Model/Prims.v), so theorems range
   over every sequence of random choices.  A failing computation keeps its counter. *)
From Verif.Base Require Import Bytes.

Definition M (A : Type) : Type := nat -> res A * nat.
Definition mres {A} (r : res A) : M A := fun s => (r, s).
Definition mret {A} (a : A) : M A := mres (Val a).
Definition mlift {A} (o : option A) : M A := mres (lift o).
Definition mbind {A B} (m : M A) (k : A -> M B) : M B := fun s =>
  match m s with
  | (Val a, s') => k a s'
  | (Null, s') => (Null, s')
  | (UB, s') => (UB, s')
  end.
(* a call whose NULL result is kept instead of returned at once *)
Definition mtry {A} (m : M A) : M (option A) := fun s =>
  match m s with
  | (Val a, s') => (Val (Some a), s')
  | (Null, s') => (Val None, s')
  | (UB, s') => (UB, s')
  end.
(* the same for a result *)
Definition rtry {A} (r : res A) : res (option A) :=
  match r with Val a => Val (Some a) | Null => Val None | UB => UB end.

Declare Scope m_scope.
Delimit Scope m_scope with m.
Notation "x <-- e ;; k" := (mbind e (fun x => k)) (at level 61, e at next level, right associativity) : m_scope.
Notation "x <-~ e ;; k" := (mbind (mlift e) (fun x => k)) (at level 61, e at next level, right associativity) : m_scope.
Notation "x <-= e ;; k" := (mbind (mres e) (fun x => k)) (at level 61, e at next level, right associativity) : m_scope.

Lemma mbind_Val {A B} (m : M A) (k : A -> M B) s b s' : mbind m k s = (Val b, s') ->
  exists a s1, m s = (Val a, s1) /\ k a s1 = (Val b, s').
Proof. unfold mbind. destruct (m s) as [[a| |] s1]; intros H; try discriminate. eauto. Qed.
Lemma mlift_Val {A} (o : option A) s a s' : mlift o s = (Val a, s') -> o = Some a /\ s' = s.
Proof. unfold mlift, mres. destruct o; cbn; intros H; inversion H; auto. Qed.
Lemma mres_Val {A} (r : res A) s a s' : mres r s = (Val a, s') -> r = Val a /\ s' = s.
Proof. unfold mres. intros H. inversion H. auto. Qed.
Lemma mtry_Val {A} (m : M A) s o s' : mtry m s = (Val o, s') ->
  match o with Some a => m s = (Val a, s') | None => m s = (Null, s') end.
Proof. unfold mtry. destruct (m s) as [[a| |] s1]; intros H; inversion H; reflexivity. Qed.
