From Verif.Base Require Import Bytes.
From Verif.Model Require Import Buffer.
From Verif.Spec Require Import BufferSpec.
From Verif.Proofs Require Import BytesFacts BufferFacts.
From Coq Require Import ZifyBool ZifyNat ZifyN.
Ltac Zify.zify_post_hook ::= Z.div_mod_to_equations.
Local Open Scope N_scope.

Lemma section_ok_fits b start len : section_ok b start len = true <-> section_fits b start len.
Proof. unfold section_ok, section_fits, MAX_BUFFER_SIZE, library_limit. lia. Qed.
Lemma slice_is_section b start len : start + len <= blen b ->
  is_section b start len (slice b (N.to_nat start) (N.to_nat len)).
Proof.
  intros H. split; [apply slice_blen; exact H|]. intros i Hi. unfold byte_at.
  rewrite nth_slice by lia. f_equal. lia.
Qed.

Lemma copy_section_prop : forall junk b start len, start < two64 -> len < two64 ->
  (section_fits b start len ->
     exists r, buffer_copy_section_raw junk (Some b) start len = Val r /\ is_section b start len r) /\
  (~ section_fits b start len -> buffer_copy_section_raw junk (Some b) start len = Null) /\
  buffer_copy_section_raw junk None start len = Null.
Proof.
  intros junk b start len Hs Hl. rewrite buffer_copy_section_raw_eq by assumption.
  unfold buffer_copy_section. split; [|split; [|reflexivity]]; intros H.
  - pose proof (proj2 (section_ok_fits b start len) H) as E. rewrite E.
    eexists. split; [reflexivity|]. apply slice_is_section. apply H.
  - destruct (section_ok b start len) eqn:E; [|reflexivity].
    apply section_ok_fits in E. contradiction.
Qed.

Lemma nth_error_nil {A} i : nth_error (@nil A) i = None.
Proof. destruct i; reflexivity. Qed.
Lemma nth_error_firstn {A} (l : list A) n i :
  nth_error (firstn n l) i = if Nat.ltb i n then nth_error l i else None.
Proof.
  revert n i. induction l as [|x l IH]; intros [|n] [|i]; cbn [firstn nth_error]; try reflexivity.
  - destruct (Nat.ltb (S i) (S n)); reflexivity.
  - rewrite IH. reflexivity.
Qed.
Lemma nth_error_skipn {A} (l : list A) n i : nth_error (skipn n l) i = nth_error l (n + i).
Proof.
  revert n. induction l as [|x l IH]; intros [|n]; cbn [skipn]; try reflexivity.
  - rewrite !nth_error_nil. reflexivity.
  - cbn [Nat.add nth_error]. apply IH.
Qed.
Lemma splice_is_update b start len src : start + len <= blen b -> len <= blen src ->
  is_update b start len src (firstn (N.to_nat start) b ++ firstn (N.to_nat len) src ++ skipn (N.to_nat (start + len)) b).
Proof.
  intros H1 H2. unfold is_update. split.
  - unfold blen in *. rewrite !app_length, !firstn_length, skipn_length. lia.
  - intros i. unfold byte_at.
    assert (L1 : length (firstn (N.to_nat start) b) = N.to_nat start) by (unfold blen in *; rewrite firstn_length; lia).
    assert (L2 : length (firstn (N.to_nat len) src) = N.to_nat len) by (unfold blen in *; rewrite firstn_length; lia).
    destruct (start <=? i) eqn:E1; cbn [andb].
    + rewrite nth_error_app2 by lia. rewrite L1.
      destruct (i <? start + len) eqn:E2.
      * rewrite nth_error_app1 by lia. rewrite nth_error_firstn.
        destruct (Nat.ltb_spec (N.to_nat i - N.to_nat start) (N.to_nat len)); [f_equal; lia|lia].
      * rewrite nth_error_app2 by lia. rewrite L2, nth_error_skipn. f_equal. lia.
    + rewrite nth_error_app1 by lia. rewrite nth_error_firstn.
      destruct (Nat.ltb_spec (N.to_nat i) (N.to_nat start)); [reflexivity|lia].
Qed.

Lemma modify_section_prop : forall b src start len, start < two64 -> len < two64 ->
  (section_fits b start len -> len <= blen src ->
     exists b', buffer_modify_section_raw (Some b) (Some src) start len = Val b' /\ is_update b start len src b') /\
  (~ section_fits b start len -> buffer_modify_section_raw (Some b) (Some src) start len = Null) /\
  buffer_modify_section_raw None (Some src) start len = Null /\
  buffer_modify_section_raw (Some b) None start len = Null.
Proof.
  intros b src start len Hs Hl. rewrite buffer_modify_section_raw_eq by assumption.
  split; [|split; [|split; reflexivity]].
  - intros H Hsrc. pose proof (proj2 (section_ok_fits b start len) H) as E. rewrite E.
    destruct (len <=? blen src) eqn:E1; [|lia].
    eexists. split; [reflexivity|]. apply splice_is_update; [apply H|exact Hsrc].
  - intros H. destruct (section_ok b start len) eqn:E; [|reflexivity].
    apply section_ok_fits in E. contradiction.
Qed.

Lemma joined_eq bufs : concat (map obytes bufs) = joined bufs.
Proof. induction bufs as [|[b|] bufs IH]; cbn [map concat obytes joined app]; [reflexivity|rewrite IH; reflexivity|exact IH]. Qed.
Lemma size_ok_limit n : size_ok n = true <-> within_limit n.
Proof. unfold size_ok, within_limit, MAX_BUFFER_SIZE, library_limit. lia. Qed.

Lemma concat_multi_prop : forall junk bufs,
  Forall (fun o => forall b, o = Some b -> blen b < two64) bufs ->
  (within_limit (blen (joined bufs)) -> buffer_concat_multi_raw junk bufs = Val (joined bufs)) /\
  (~ within_limit (blen (joined bufs)) -> buffer_concat_multi_raw junk bufs = Null).
Proof.
  intros junk bufs Hall. rewrite buffer_concat_multi_raw_eq.
  2:{ eapply Forall_impl; [|exact Hall]. intros [b|] H; cbn [obytes]; [apply (H b eq_refl)|reflexivity]. }
  unfold buffer_concat_multi. rewrite joined_eq. split; intros H.
  - rewrite buffer_create_ok by (apply size_ok_limit; exact H). reflexivity.
  - unfold buffer_create. destruct (size_ok _) eqn:E; [|reflexivity]. apply size_ok_limit in E. contradiction.
Qed.
Lemma concat_prop : forall junk a b, blen a < two64 -> blen b < two64 ->
  (within_limit (blen (a ++ b)) -> buffer_concat_raw junk (Some a) (Some b) = Val (a ++ b)) /\
  (~ within_limit (blen (a ++ b)) -> buffer_concat_raw junk (Some a) (Some b) = Null) /\
  buffer_concat_raw junk None (Some b) = Null /\ buffer_concat_raw junk (Some a) None = Null.
Proof.
  intros junk a b Ha Hb. rewrite buffer_concat_raw_eq by assumption. cbn [buffer_concat].
  split; [|split; [|split; reflexivity]]; intros H.
  - rewrite buffer_create_ok by (apply size_ok_limit; exact H). reflexivity.
  - unfold buffer_create. destruct (size_ok _) eqn:E; [|reflexivity]. apply size_ok_limit in E. contradiction.
Qed.
