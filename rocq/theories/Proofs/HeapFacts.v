(* A small program logic for the heap model. *)
From Verif.Base Require Import Bytes.
From Verif.Model Require Import Buffer Heap HeapObjects.
From Verif.Spec Require Import HeapSpec BufferSpec.
From Coq Require Import Permutation ZifyBool ZifyNat ZifyN.

(* [h] is [h0] plus the blocks [X]; nothing secret was released on the way *)
Definition ext0 (secret : bytes -> Prop) (h0 : heap) (X : list cell) (h : heap) : Prop :=
  heap_ok h /\ NoDup (map fst X) /\ (forall b c, In (b, c) X -> mem h b = Some c /\ mem h0 b = None) /\
  (forall b, ~ In b (map fst X) -> mem h b = mem h0 b) /\ wiped secret h0 h.

Definition wp {A} (U : Prop) (fails : schedule) (m : H A) (h : heap) (Q : A -> heap -> Prop) : Prop :=
  match m fails h with None => U | Some (a, h') => Q a h' end.

Section rules.
  Context (secret : bytes -> Prop) (U : Prop) (fails : schedule) (h0 : heap).
  Notation ext0 := (ext0 secret h0).
  Notation wp := (wp U fails).

  Lemma ext0_perm X Y h : Permutation X Y -> ext0 X h -> ext0 Y h.
  Proof.
    intros P (A & B & C & D & E). split; [exact A|]. split; [eapply Permutation_NoDup; [apply Permutation_map; exact P|exact B]|].
    split; [|split; [|exact E]].
    - intros b c I. apply C. eapply Permutation_in; [apply Permutation_sym; exact P|exact I].
    - intros b N. apply D. intros I. apply N. eapply Permutation_in; [apply Permutation_map; exact P|exact I].
  Qed.
  Lemma ext0_live X h b c : ext0 (one_cell b c ++ X) h -> mem h b = Some c.
  Proof. intros (_ & _ & C & _). apply (C b c). left. reflexivity. Qed.
  Lemma ext0_source X h b c : ext0 X h -> mem h0 b = Some c -> mem h b = Some c.
  Proof.
    intros (_ & _ & C & D & _) E. rewrite D; [exact E|]. intros I. apply in_map_iff in I. destruct I as ((b' & c') & <- & I).
    destruct (C b' c' I) as (_ & N). cbn in E. congruence.
  Qed.

  Lemma wp_ret {A} (a : A) h (Q : A -> heap -> Prop) : Q a h -> wp (hret a) h Q.
  Proof. exact (fun H => H). Qed.
  Lemma wp_ub {A} h (Q : A -> heap -> Prop) : U -> wp hub h Q.
  Proof. exact (fun H => H). Qed.
  Lemma wp_bind {A B} (m : H A) (k : A -> H B) h Q : wp m h (fun a h1 => wp (k a) h1 Q) -> wp (hbind m k) h Q.
  Proof. unfold HeapFacts.wp, hbind. destruct (m fails h) as [[a h1]|]; exact (fun H => H). Qed.
  Lemma wp_mono {A} (m : H A) h (Q R : A -> heap -> Prop) : wp m h Q -> (forall a h1, Q a h1 -> R a h1) -> wp m h R.
  Proof. unfold HeapFacts.wp. destruct (m fails h) as [[a h1]|]; auto. Qed.
  Lemma wp_check {A B} (m : H (option A)) c (k : A -> H (option B)) h Q :
    wp m h (fun o h1 => match o with Some x => wp (k x) h1 Q | None => wp c h1 (fun _ h2 => Q None h2) end) -> wp (hcheck m c k) h Q.
  Proof.
    intros W. unfold hcheck. apply wp_bind. eapply wp_mono; [exact W|]. intros [x|] h1 I; [exact I|]. apply wp_bind. exact I.
  Qed.
  Lemma wp_assume {A B} (m : H (option A)) (k : A -> H B) h Q :
    wp m h (fun o h1 => match o with Some x => wp (k x) h1 Q | None => U end) -> wp (hassume m k) h Q.
  Proof. intros W. unfold hassume. apply wp_bind. eapply wp_mono; [exact W|]. intros [x|] h1 I; exact I. Qed.
  Lemma wp_check_if {A B C} (s : option C) (m : H (option A)) c (k : option A -> H (option B)) h Q :
    wp m h (fun o h1 => match s, o with Some _, None => wp c h1 (fun _ h2 => Q None h2) | _, _ => wp (k o) h1 Q end) ->
    wp (hcheck_if s m c k) h Q.
  Proof.
    intros W. unfold hcheck_if. apply wp_bind. eapply wp_mono; [exact W|]. intros [x|] h1 I; destruct s; try exact I. apply wp_bind. exact I.
  Qed.

  Lemma wp0_alloc ty c X h (Q : option block -> heap -> Prop) : ext0 X h ->
    (forall h1, ext0 X h1 -> (exists n, fails n ty = true) -> Q None h1) ->
    (forall b h1, ext0 (one_cell b c ++ X) h1 -> Q (Some b) h1) -> wp (alloc ty c) h Q.
  Proof.
    intros (A & B & C & D & E) QN QS. unfold HeapFacts.wp, alloc. destruct (fails (next h) ty) eqn:F.
    - apply QN; [|exists (next h); exact F]. repeat split; cbn; auto; try (apply (C _ _ H)).
      intros b L. apply A. cbn in L. lia.
    - assert (NH : mem h (next h) = None) by (apply A; lia).
      assert (NX : ~ In (next h) (map fst X)).
      { intros I. apply in_map_iff in I. destruct I as ((b & v) & G & I). cbn in G. subst b. destruct (C _ _ I). congruence. }
      apply QS. split; [|split; [|split; [|split]]].
      + intros b L. cbn in L |- *. destruct (Nat.eqb_spec b (next h)); [lia|]. apply A. lia.
      + cbn. constructor; assumption.
      + intros b v [G|I].
        * inversion G; subst. cbn. rewrite Nat.eqb_refl. split; [reflexivity|]. rewrite <- (D _ NX). exact NH.
        * destruct (C _ _ I) as (M1 & M2). split; [|exact M2]. cbn. destruct (Nat.eqb_spec b (next h)); [|exact M1].
          subst b. congruence.
      + intros b N. cbn in N |- *. destruct (Nat.eqb_spec b (next h)); [subst; exfalso; apply N; left; reflexivity|].
        apply D. intros I. apply N. right. exact I.
      + exact E.
  Qed.
  Lemma wp_touch b c h (Q : unit -> heap -> Prop) : mem h b = Some c -> Q tt h -> wp (touch b) h Q.
  Proof. intros E G. unfold HeapFacts.wp, touch. rewrite E. exact G. Qed.
  Lemma wp_load b c h (Q : bytes -> heap -> Prop) : mem h b = Some c -> Q c h -> wp (load b) h Q.
  Proof. intros E G. unfold HeapFacts.wp, load. rewrite E. exact G. Qed.

  Lemma ext0_update b c d X h : ext0 (one_cell b c ++ X) h -> ext0 (one_cell b d ++ X) (set_mem h b (Some d)).
  Proof.
    intros (A & B & C & D & E). destruct (C b c (or_introl eq_refl)) as (M1 & M2). split; [|split; [|split; [|split]]].
    - intros x L. cbn. destruct (Nat.eqb_spec x b); [|apply A; exact L]. subst x. rewrite A in M1 by exact L. discriminate.
    - exact B.
    - intros x v [G|I].
      + inversion G; subst. cbn. rewrite Nat.eqb_refl. split; [reflexivity|exact M2].
      + destruct (C x v (or_intror I)) as (N1 & N2). split; [|exact N2]. cbn. destruct (Nat.eqb_spec x b); [|exact N1].
        subst x. inversion B; subst. exfalso. apply H1. apply in_map_iff. exists (b, v). split; [reflexivity|exact I].
    - intros x N. cbn. destruct (Nat.eqb_spec x b); [|apply D; exact N]. subst x. exfalso. apply N. left. reflexivity.
    - exact E.
  Qed.
  Lemma wp0_store b c d X h (Q : unit -> heap -> Prop) : ext0 (one_cell b c ++ X) h -> blen d = blen c ->
    (forall h1, ext0 (one_cell b d ++ X) h1 -> Q tt h1) -> wp (store b d) h Q.
  Proof.
    intros E L G. unfold HeapFacts.wp, store. rewrite (ext0_live _ _ _ _ E). rewrite (proj2 (N.eqb_eq _ _) L).
    apply G. eapply ext0_update. exact E.
  Qed.
  Lemma wp0_zero b c X h (Q : unit -> heap -> Prop) : ext0 (one_cell b c ++ X) h ->
    (forall h1, ext0 (one_cell b (zeros (length c)) ++ X) h1 -> Q tt h1) -> wp (zero b (blen c)) h Q.
  Proof.
    intros E G. unfold HeapFacts.wp, zero. rewrite (ext0_live _ _ _ _ E). rewrite N.leb_refl.
    apply G. unfold blen, zeros. rewrite Nnat.Nat2N.id, skipn_all, app_nil_r. eapply ext0_update. exact E.
  Qed.
  Lemma wp0_free b c X h (Q : unit -> heap -> Prop) : ext0 (one_cell b c ++ X) h -> ~ secret c -> (forall h1, ext0 X h1 -> Q tt h1) -> wp (free b) h Q.
  Proof.
    intros E NS G. unfold HeapFacts.wp, free. rewrite (ext0_live _ _ _ _ E). destruct E as (A & B & C & D & E).
    destruct (C b c (or_introl eq_refl)) as (M1 & M2). inversion B as [|? ? NI ND]; subst. cbn in NI. apply G.
    split; [|split; [|split; [|split]]].
    - intros x L. cbn in L |- *. destruct (Nat.eqb_spec x b); [reflexivity|apply A; exact L].
    - exact ND.
    - intros x v I. destruct (C x v (or_intror I)) as (N1 & N2). split; [|exact N2]. cbn. destruct (Nat.eqb_spec x b); [|exact N1].
      subst x. exfalso. apply NI. apply in_map_iff. exists (b, v). split; [reflexivity|exact I].
    - intros x N. cbn. destruct (Nat.eqb_spec x b); [subst x; symmetry; exact M2|]. apply D. intros [G'|I]; [cbn in G'; congruence|]. exact (N I).
    - destruct E as (gone & E1 & E2). exists ((b, c) :: gone). split; [cbn; rewrite E1; reflexivity|].
      intros x v [G'|I]; [inversion G'; subst; exact NS|exact (E2 _ _ I)].
  Qed.
End rules.

Lemma nodup_l {A} (l m : list A) : NoDup (l ++ m) -> NoDup l.
Proof.
  induction l as [|x l IH]; intros N; [constructor|]. inversion N as [|? ? NI ND]; subst. constructor; [|exact (IH ND)].
  intros I. apply NI. apply in_or_app. left. exact I.
Qed.
Lemma nodup_r {A} (l m : list A) : NoDup (l ++ m) -> NoDup m.
Proof. induction l as [|x l IH]; intros N; [exact N|]. inversion N; subst. auto. Qed.
Lemma in_memory_app h a b : in_memory h (a ++ b) -> in_memory h a /\ in_memory h b.
Proof.
  intros (N & M). rewrite map_app in N. split; split.
  - exact (nodup_l _ _ N).
  - intros x c I. apply M. apply in_or_app. left. exact I.
  - exact (nodup_r _ _ N).
  - intros x c I. apply M. apply in_or_app. right. exact I.
Qed.
Lemma in_memory_struct h a : in_memory h (struct_cell a) -> mem h a = Some [].
Proof. intros (_ & M). apply M. left. reflexivity. Qed.
Lemma keeps_sub secret small big : keeps_secret secret big -> incl small big -> keeps_secret secret small.
Proof. intros (A & B) I. split; [exact A|]. intros c J. apply B, I, J. Qed.

Lemma ext0_start secret h : heap_ok h -> ext0 secret h [] h.
Proof.
  intros OK. split; [exact OK|]. split; [constructor|]. split; [intros b c []|]. split; [reflexivity|].
  exists []. split; [reflexivity|intros b c []].
Qed.
Lemma ext0_same secret h0 h : ext0 secret h0 [] h -> same_memory h0 h /\ wiped secret h0 h.
Proof. intros (O & _ & _ & D & E). split; [split; [exact O|intros b; apply D; intros []]|exact E]. Qed.
Lemma ext0_grown secret h0 X h : ext0 secret h0 X h -> grown h0 X h /\ wiped secret h0 h.
Proof.
  intros (O & B & C & D & E). split; [|exact E]. split; [exact O|]. split; [|split].
  - split; [exact B|]. intros b c I. apply (C b c I).
  - intros b I. apply in_map_iff in I. destruct I as ((b' & c) & <- & I). apply (C b' c I).
  - exact D.
Qed.
(* the heap without these blocks *)
Definition without (h : heap) (cs : list cell) : heap :=
  {| mem := fun b => if existsb (Nat.eqb b) (map fst cs) then None else mem h b; next := next h; freed := freed h |}.
Lemma without_in h cs b : In b (map fst cs) -> mem (without h cs) b = None.
Proof. intros I. cbn. rewrite (proj2 (existsb_exists _ _)); [reflexivity|]. exists b. split; [exact I|apply Nat.eqb_refl]. Qed.
Lemma without_out h cs b : ~ In b (map fst cs) -> mem (without h cs) b = mem h b.
Proof.
  intros N. cbn. destruct (existsb (Nat.eqb b) (map fst cs)) eqn:E; [|reflexivity]. apply existsb_exists in E.
  destruct E as (x & I & G). apply Nat.eqb_eq in G. subst. contradiction.
Qed.
Lemma ext0_without secret h cs : heap_ok h -> in_memory h cs -> ext0 secret (without h cs) cs h.
Proof.
  intros OK (N & M). split; [exact OK|]. split; [exact N|]. split; [|split].
  - intros b c I. split; [exact (M b c I)|]. apply without_in. apply in_map_iff. exists (b, c). split; [reflexivity|exact I].
  - intros b I. symmetry. apply without_out. exact I.
  - exists []. split; [reflexivity|intros b c []].
Qed.

(* The same up to leaked blocks, which there are only if [W]. *)
Definition ext (secret : bytes -> Prop) (W : Prop) (h0 : heap) (X : list cell) (h : heap) : Prop :=
  exists L, (L = [] \/ W) /\ ext0 secret h0 (L ++ X) h.
Lemma perm_swap (a b c : list cell) : Permutation (a ++ b ++ c) (b ++ a ++ c).
Proof. rewrite !app_assoc. apply Permutation_app_tail, Permutation_app_comm. Qed.
Section leaks.
  Context (secret : bytes -> Prop) (W U : Prop) (fails : schedule) (h0 : heap).
  Notation ext := (ext secret W h0).
  Notation wp := (wp U fails).
  Lemma ext_perm X Y h : Permutation X Y -> ext X h -> ext Y h.
  Proof. intros P (L & A & B). exists L. split; [exact A|]. eapply ext0_perm; [|exact B]. apply Permutation_app_head. exact P. Qed.
  Lemma ext_leak Y X h : W -> ext (Y ++ X) h -> ext X h.
  Proof. intros w (L & A & B). exists (L ++ Y). split; [right; exact w|]. rewrite <- app_assoc. exact B. Qed.
  Lemma ext_live X h b c : ext (one_cell b c ++ X) h -> mem h b = Some c.
  Proof. intros (L & A & B). eapply ext0_live. eapply ext0_perm; [|exact B]. apply perm_swap. Qed.
  Lemma ext_source X h b c : ext X h -> mem h0 b = Some c -> mem h b = Some c.
  Proof. intros (L & A & B). eapply ext0_source. exact B. Qed.
  Lemma wp_alloc ty c X h (Q : option block -> heap -> Prop) : ext X h ->
    (forall h1, ext X h1 -> (exists n, fails n ty = true) -> Q None h1) ->
    (forall b h1, ext (one_cell b c ++ X) h1 -> Q (Some b) h1) -> wp (alloc ty c) h Q.
  Proof.
    intros (L & A & B) QN QS. eapply wp0_alloc; [exact B| |].
    - intros h1 E F. apply QN; [|exact F]. exists L. split; assumption.
    - intros b h1 E. apply QS. exists L. split; [exact A|]. eapply ext0_perm; [|exact E]. apply perm_swap.
  Qed.
  Lemma wp_store b c d X h (Q : unit -> heap -> Prop) : ext (one_cell b c ++ X) h -> blen d = blen c ->
    (forall h1, ext (one_cell b d ++ X) h1 -> Q tt h1) -> wp (store b d) h Q.
  Proof.
    intros (L & A & B) N G. eapply wp0_store; [eapply ext0_perm; [|exact B]; apply perm_swap|exact N|].
    intros h1 E. apply G. exists L. split; [exact A|]. eapply ext0_perm; [|exact E]. apply perm_swap.
  Qed.
  Lemma wp_zero b c X h (Q : unit -> heap -> Prop) : ext (one_cell b c ++ X) h ->
    (forall h1, ext (one_cell b (zeros (length c)) ++ X) h1 -> Q tt h1) -> wp (zero b (blen c)) h Q.
  Proof.
    intros (L & A & B) G. eapply wp0_zero; [eapply ext0_perm; [|exact B]; apply perm_swap|].
    intros h1 E. apply G. exists L. split; [exact A|]. eapply ext0_perm; [|exact E]. apply perm_swap.
  Qed.
  Lemma wp_free b c X h (Q : unit -> heap -> Prop) : ext (one_cell b c ++ X) h -> ~ secret c -> (forall h1, ext X h1 -> Q tt h1) -> wp (free b) h Q.
  Proof.
    intros (L & A & B) N G. eapply wp0_free; [eapply ext0_perm; [|exact B]; apply perm_swap|exact N|].
    intros h1 E. apply G. exists L. split; [exact A|exact E].
  Qed.
End leaks.

(* rules for copy and destroy functions: [rel] says how the value of a copy relates to the
   original when something was dropped, which happens only if [D] *)
Definition copy_rule {T V} (cells : T -> list cell) (value : T -> V) (keep : V -> V) (rel : V -> V -> Prop) (made : V -> Prop) (public : V -> list bytes)
  (untested : list ctype) (leaky lossy : bool) (copy : option T -> H (option T)) : Prop :=
  (forall fails h, copy None fails h = Some (None, h)) /\
  forall secret (U W D : Prop) fails h0 X h t (Q : option T -> heap -> Prop),
    (forall n ty, In ty untested -> fails n ty = true -> U) ->
    (leaky = true -> (made (value t) -> some_failure fails) -> W) ->
    (lossy = true -> (made (value t) -> some_failure fails) -> D) ->
    ext secret W h0 X h -> in_memory h0 (cells t) -> keeps_secret secret (public (value t)) ->
    (forall h1, ext secret W h0 X h1 -> (made (value t) -> some_failure fails) -> Q None h1) ->
    (forall t' h1, ext secret W h0 (cells t' ++ X) h1 -> rel (value t) (value t') -> value t' = keep (value t) \/ D -> Q (Some t') h1) ->
    wp U fails (copy (Some t)) h Q.
Definition destroy_rule {T V} (cells : T -> list cell) (value : T -> V) (public : V -> list bytes) (destroy : option T -> H unit) : Prop :=
  (forall fails h, destroy None fails h = Some (tt, h)) /\
  forall secret (U W : Prop) fails h0 X h t (Q : unit -> heap -> Prop),
    ext secret W h0 (cells t ++ X) h -> keeps_secret secret (public (value t)) ->
    (forall h1, ext secret W h0 X h1 -> Q tt h1) -> wp U fails (destroy (Some t)) h Q.

Lemma ext_start secret W h : heap_ok h -> ext secret W h [] h.
Proof. intros OK. exists []. split; [left; reflexivity|]. apply ext0_start. exact OK. Qed.
Lemma ext_strict secret h0 X h : ext secret False h0 X h -> ext0 secret h0 X h.
Proof. intros (L & [->|[]] & E). exact E. Qed.

Lemma copy_rule_sound {T V} (cells : T -> list cell) (value : T -> V) keep rel made public untested leaky lossy copy :
  copy_rule cells value keep rel made public untested leaky lossy copy ->
  copies_in_memory cells value keep rel made (fun t => public (value t)) untested leaky lossy copy.
Proof.
  intros (HN & R). split; [exact HN|]. intros secret fails h t OK M K.
  set (W := leaky = true /\ (made (value t) -> some_failure fails)). set (D := lossy = true /\ (made (value t) -> some_failure fails)).
  specialize (R secret (exists n ty, In ty untested /\ fails n ty = true) W D fails h [] h t
    (fun o h' => match o with
     | None => exists leaked, (leaked = [] \/ W) /\ grown h leaked h' /\ wiped secret h h' /\ (made (value t) -> some_failure fails)
     | Some t' => exists leaked, (leaked = [] \/ W) /\ (value t' = keep (value t) \/ D /\ rel (value t) (value t')) /\
                  grown h (leaked ++ cells t') h' /\ wiped secret h h' end)).
  unfold wp in R. destruct (copy (Some t) fails h) as [[[t'|] h']|].
  all: apply R; try assumption; try (apply ext_start; exact OK); try (intros n ty I F; exists n, ty; split; assumption).
  all: try (intros l F; split; assumption).
  all: try (intros h1 (L & A & E) F; rewrite app_nil_r in E; destruct (ext0_grown _ _ _ _ E) as (G & B); exists L; repeat (split; [assumption|]); assumption).
  all: intros t1 h1 (L & A & E) F F2; rewrite app_nil_r in E; destruct (ext0_grown _ _ _ _ E) as (G & B); exists L; split; [assumption|].
  all: split; [destruct F2; [left; assumption|right; split; assumption]|split; assumption].
Qed.
(* nothing untested, leaked or dropped: the full statement *)
Lemma copy_rule_strict {T V} (cells : T -> list cell) (value : T -> V) rel made public copy :
  copy_rule cells value (fun v => v) rel made public [] false false copy -> copies_safely cells value made (fun t => public (value t)) copy.
Proof.
  intros R. apply copy_rule_sound in R. destruct R as (HN & R). split; [exact HN|]. intros secret fails h t OK M K.
  specialize (R secret fails h t OK M K). destruct (copy (Some t) fails h) as [[[t'|] h']|].
  - destruct R as (L & [->|(F & _)] & VV & G & B); [|discriminate F]. destruct VV as [VV|((F & _) & _)]; [|discriminate F].
    split; [exact VV|split; [exact G|exact B]].
  - destruct R as (L & [->|(F0 & _)] & G & B & F); [|discriminate F0]. split; [|split; [exact B|exact F]].
    split; [exact (proj1 G)|]. intros b. apply (proj2 (proj2 (proj2 G))). intros [].
  - destruct R as (n & ty & [] & _).
Qed.
Lemma destroy_rule_sound {T V} (cells : T -> list cell) (value : T -> V) public destroy :
  destroy_rule cells value public destroy -> destroys_in_memory cells (fun t => public (value t)) destroy.
Proof.
  intros (HN & R). split; [exact HN|]. intros secret fails h t OK M K.
  specialize (R secret False False fails (without h (cells t)) [] h t (fun _ h' => ext secret False (without h (cells t)) [] h')).
  unfold wp in R. rewrite app_nil_r in R.
  assert (E0 : ext secret False (without h (cells t)) (cells t) h).
  { exists []. split; [left; reflexivity|]. apply ext0_without; assumption. }
  destruct (destroy (Some t) fails h) as [[[] h']|].
  - exists h'. split; [reflexivity|]. assert (E : ext0 secret (without h (cells t)) [] h').
    { apply ext_strict. apply R; [exact E0|exact K|auto]. }
    destruct (ext0_same _ _ _ E) as ((O & A) & B). split; [split; [exact O|split]|exact B].
    + intros b I. rewrite A. apply without_in. exact I.
    + intros b I. rewrite A. apply without_out. exact I.
  - exfalso. apply R; [exact E0|exact K|auto].
Qed.

(* moving one group of blocks to the front *)
Lemma perm_cons (a t r r' : list cell) : Permutation r (t ++ r') -> Permutation (a ++ r) (t ++ a ++ r').
Proof.
  intros P. eapply Permutation_trans; [apply Permutation_app_head; exact P|]. rewrite !app_assoc.
  apply Permutation_app_tail, Permutation_app_comm.
Qed.
Lemma perm_end (t : list cell) : Permutation t (t ++ []).
Proof. rewrite app_nil_r. apply Permutation_refl. Qed.
Lemma perm_step (L a L' R' : list cell) : Permutation L (a ++ L') -> Permutation L' R' -> Permutation L (a ++ R').
Proof. intros P Q. eapply Permutation_trans; [exact P|]. apply Permutation_app_head. exact Q. Qed.
Ltac perm_to t L :=
  lazymatch L with
  | t ++ ?r => constr:(Permutation_refl L)
  | ?a ++ ?r => let p := perm_to t r in
                lazymatch type of p with Permutation _ (_ ++ ?r') => constr:(perm_cons a t r r' p) end
  | t => constr:(perm_end t)
  end.
(* bring the blocks [t] of an [ext] hypothesis to the front *)
Ltac pull E t :=
  lazymatch type of E with
  | ext ?s ?W ?h0 ?L ?h => let p := perm_to t L in apply (ext_perm s W h0 _ _ _ p) in E
  end.
Ltac solve_perm :=
  rewrite <- ?app_assoc, ?app_nil_l, ?app_nil_r;
  repeat lazymatch goal with
  | |- Permutation ?L ?L => apply Permutation_refl
  | |- Permutation ?L (?a ++ ?R) => let p := perm_to a L in refine (perm_step _ _ _ _ p _)
  | |- Permutation ?L ?a => let p := perm_to a L in refine (Permutation_trans p _); rewrite app_nil_r; apply Permutation_refl
  end.
Ltac norm E := rewrite <- ?app_assoc, ?app_nil_l, ?app_nil_r in E.

(* both rules together *)
Lemma independent_of {T V} (cells : T -> list cell) (value : T -> V) keep rel made public untested leaky lossy copy publicd destroy :
  copy_rule cells value keep rel made public untested leaky lossy copy -> destroy_rule cells value publicd destroy ->
  independent cells value keep made copy destroy.
Proof.
  intros C D h t OK M Z. apply copy_rule_sound in C. apply destroy_rule_sound in D.
  assert (KS : forall l, keeps_secret (fun _ => False) l) by (intros l; split; [intros n F|intros c I F]; exact F).
  assert (NF : ~ some_failure never) by (intros (n & ty & F); discriminate F).
  pose proof (proj2 C (fun _ => False) never h t OK M (KS _)) as Cp. cbv zeta in Cp.
  destruct (copy (Some t) never h) as [[[t'|] h1]|].
  - destruct Cp as (L & [->|(_ & F)] & VV & G & _); [|contradiction (NF (F Z))]. destruct VV as [VV|((_ & F) & _)]; [|contradiction (NF (F Z))].
    cbn [app] in G. destruct G as (OK1 & M1 & Fresh & Rest).
    assert (Apart : forall b, In b (map fst (cells t)) -> ~ In b (map fst (cells t'))).
    { intros b I J. apply Fresh in J. apply in_map_iff in I. destruct I as ((b' & c) & <- & I). cbn [fst] in J. rewrite (proj2 M _ _ I) in J. discriminate J. }
    assert (M2 : in_memory h1 (cells t)).
    { split; [exact (proj1 M)|]. intros b c I. rewrite Rest; [exact (proj2 M b c I)|]. apply Apart. apply in_map_iff. exists (b, c). split; [reflexivity|exact I]. }
    exists t', h1. split; [reflexivity|]. split; [exact VV|]. split; [exact M2|]. split.
    + destruct (proj2 D (fun _ => False) never h1 t' OK1 M1 (KS _)) as (h2 & E & (OK2 & Gone & Same) & _).
      exists h2. split; [exact E|]. split; [exact OK2|]. intros b.
      destruct (in_dec Nat.eq_dec b (map fst (cells t'))) as [I|I]; [rewrite (Gone b I), (Fresh b I); reflexivity|].
      rewrite (Same b I). apply Rest. exact I.
    + destruct (proj2 D (fun _ => False) never h1 t OK1 M2 (KS _)) as (h3 & E & (OK3 & Gone & Same) & _).
      exists h3. split; [exact E|]. split.
      * split; [exact (proj1 M1)|]. intros b c I. rewrite Same; [exact (proj2 M1 b c I)|]. intros J. apply (Apart b J).
        apply in_map_iff. exists (b, c). split; [reflexivity|exact I].
      * intros b I J. rewrite (Same b I). apply Rest. exact J.
  - destruct Cp as (L & _ & _ & _ & F). contradiction (NF (F Z)).
  - destruct Cp as (n & ty & _ & F). discriminate F.
Qed.
