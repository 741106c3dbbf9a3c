From Coq Require Import ZifyBool ZifyNat ZifyN.
From Verif.Base Require Import Bytes Monad.
From Verif.Model Require Import Buffer CString Hex Base32 Cipher Ecdsa Prims Engine Fingerprint Identity.
From Verif.Spec Require Import BufferSpec CodecSpec TextSpec IdentitySpec.
From Verif.Proofs Require Import BytesFacts BufferFacts BufferProps CodecFacts EngineFacts.
Ltac Zify.zify_post_hook ::= Z.div_mod_to_equations.
Local Open Scope N_scope.

Lemma byte_eqbP a b : reflect (a = b) (Byte.eqb a b).
Proof. apply iff_reflect. symmetry. apply byte_eqb_spec. Qed.

Lemma order_sym : forall a b w1 w2, length a = length b ->
  fingerprint_order a b w1 w2 = fingerprint_order b a w2 w1.
Proof.
  induction a as [|x a IH]; intros [|y b] w1 w2 L; try discriminate; [reflexivity|].
  cbn [fingerprint_order]. injection L as L. rewrite (IH b w1 w2 L).
  destruct (byte_eqbP x y) as [E|E].
  - subst. rewrite byte_eqb_refl. reflexivity.
  - destruct (byte_eqbP y x) as [E'|E']; [congruence|].
    assert (b2n x <> b2n y) by (intros H; apply E, b2n_inj, H).
    destruct (N.ltb_spec (b2n y) (b2n x)), (N.ltb_spec (b2n x) (b2n y)); try lia; reflexivity.
Qed.
Lemma order_spec : forall a b w1 w2, length a = length b ->
  fingerprint_order a b w1 w2 =
  if beqb a b then None else if lex_gt a b then buffer_concat (Some w1) (Some w2) else buffer_concat (Some w2) (Some w1).
Proof.
  induction a as [|x a IH]; intros [|y b] w1 w2 L; try discriminate; [reflexivity|].
  cbn [fingerprint_order lex_gt beqb]. injection L as L. rewrite (IH b w1 w2 L).
  destruct (byte_eqbP x y) as [->|E].
  - rewrite N.eqb_refl. cbn [andb]. reflexivity.
  - cbn [andb]. destruct (N.eqb_spec (b2n x) (b2n y)) as [H|H]; [destruct E; apply b2n_inj, H|]. reflexivity.
Qed.

Lemma bilateral_sym P a b t : fingerprint_gen_bilateral P a b t = fingerprint_gen_bilateral P b a t.
Proof.
  destruct t. cbn [fingerprint_gen_bilateral]. destruct a as [a|], b as [b|]; try reflexivity.
  unfold fingerprint_sha512_combine. rewrite (N.eqb_sym (blen (fp_data b))).
  destruct (N.eqb_spec (blen (fp_data a)) (blen (fp_data b))) as [E|E]; [|reflexivity]. cbn [negb].
  rewrite order_sym by (unfold blen in E; lia). reflexivity.
Qed.
Lemma fixed_len_safe k : ec_key_get_pubdata_fixed_len (Some k) <> UB.
Proof.
  unfold ec_key_get_pubdata_fixed_len. destruct (_ =? _) eqn:E.
  - destruct (buffer_copy _); discriminate.
  - destruct (_ <? _) eqn:F; [discriminate|]. destruct (buffer_create_empty_zero _) as [f|] eqn:B; [|discriminate].
    cbn [lift rbind]. unfold memwrite. rewrite memread_all. cbn [rbind].
    assert (L : blen f = max_pub_size (ek_curve k)).
    { exact (create_empty_length _ _ _ B). }
    match goal with |- context [if ?c then _ else _] => destruct c eqn:G end; [discriminate|].
    exfalso. unfold blen in *. lia.
Qed.
Lemma gen_safe P k i t : fingerprint_gen P (Some k) (Some i) t <> UB.
Proof.
  unfold fingerprint_gen. pose proof (fixed_len_safe k) as H. destruct (ec_key_get_pubdata_fixed_len _); [|discriminate|congruence].
  cbn [rbind]. destruct (fingerprint_sha512_encode _ _ _); discriminate.
Qed.
Lemma identity_bilateral_sym P a b : identity_get_bilateral_fingerprint P a b = identity_get_bilateral_fingerprint P b a.
Proof.
  destruct a as [a|], b as [b|]; try reflexivity. unfold identity_get_bilateral_fingerprint.
  pose proof (gen_safe P (id_key a) (id_identifier a) FP_SHA512). pose proof (gen_safe P (id_key b) (id_identifier b) FP_SHA512).
  destruct (fingerprint_gen P (Some (id_key a)) _ _), (fingerprint_gen P (Some (id_key b)) _ _); cbn [rbind]; try reflexivity; try congruence.
  rewrite bilateral_sym. reflexivity.
Qed.
Lemma concat_limit x y : within_limit (blen x + blen y) -> buffer_concat (Some x) (Some y) = Some (x ++ y)%list.
Proof. intros H. unfold buffer_concat. apply create_limit. cbn [obytes]. rewrite blen_app. exact H. Qed.

Lemma bilateral_value P a b : length (fp_data a) = length (fp_data b) -> within_limit (blen (fp_data a) + blen (fp_data b)) ->
  fp_data a <> fp_data b ->
  fingerprint_gen_bilateral P (Some a) (Some b) FP_SHA512 =
  Some {| fp_type := FP_SHA512; fp_data := p_sha P SHA512 (larger_first (fp_data a) (fp_data b)) |}.
Proof.
  intros L W D. cbn [fingerprint_gen_bilateral]. unfold fingerprint_sha512_combine.
  replace (blen (fp_data a) =? blen (fp_data b)) with true by (unfold blen; lia). cbn [negb].
  rewrite order_spec by exact L. rewrite (proj2 (beqb_false _ _) D). unfold larger_first.
  destruct (lex_gt _ _); rewrite concat_limit by (rewrite ?(N.add_comm (blen (fp_data b))); exact W);
    unfold fingerprint_sha512_create, sha2, obytes; rewrite app_nil_r; reflexivity.
Qed.
Lemma bilateral_equal P a b : fp_data a = fp_data b -> fingerprint_gen_bilateral P (Some a) (Some b) FP_SHA512 = None.
Proof.
  intros E. cbn [fingerprint_gen_bilateral]. unfold fingerprint_sha512_combine. rewrite E, N.eqb_refl. cbn [negb].
  rewrite order_spec by reflexivity. rewrite beqb_refl. reflexivity.
Qed.
Lemma gen_full P x f : full_size (id_key x) -> identity_get_fingerprint P (Some x) = Val f ->
  fp_data f = p_sha P SHA512 (id_identifier x ++ pub_of x)%list.
Proof.
  unfold full_size, pub_of. intros F. unfold identity_get_fingerprint, fingerprint_gen, ec_key_get_pubdata_fixed_len.
  destruct (id_key x) as [c pub pri]. destruct c. cbn [ek_curve ek_pub max_pub_size] in *.
  replace (blen pub =? 134) with true by (unfold blen; lia). rewrite copy_limit by (unfold within_limit, library_limit, blen; lia).
  cbn [lift rbind]. unfold fingerprint_sha512_encode. destruct (buffer_concat _ _) as [b|] eqn:E; [|discriminate].
  apply buffer_concat_Some in E. destruct E as [-> _]. unfold fingerprint_sha512_create, sha2. cbn [fingerprint_create lift obytes].
  rewrite app_nil_r. intros H. apply Val_inj in H. subst f. reflexivity.
Qed.
Lemma gen_full_ok P x : full_size (id_key x) -> blen (id_identifier x) < 128 -> exists f, identity_get_fingerprint P (Some x) = Val f.
Proof.
  unfold full_size. intros F I. unfold identity_get_fingerprint, fingerprint_gen, ec_key_get_pubdata_fixed_len.
  destruct (id_key x) as [c pub pri]. destruct c. cbn [ek_curve ek_pub max_pub_size] in *.
  replace (blen pub =? 134) with true by (unfold blen; lia). rewrite copy_limit by (unfold within_limit, library_limit, blen; lia).
  cbn [lift rbind]. unfold fingerprint_sha512_encode. rewrite concat_limit by (unfold within_limit, library_limit; unfold blen in *; lia).
  eexists. reflexivity.
Qed.
Lemma fingerprint_binds P a b f : full_size (id_key a) -> full_size (id_key b) ->
  no_collision P (id_identifier a ++ pub_of a) (id_identifier b ++ pub_of b) ->
  identity_get_fingerprint P (Some a) = Val f -> identity_get_fingerprint P (Some b) = Val f ->
  id_identifier a = id_identifier b /\ pub_of a = pub_of b.
Proof.
  intros Fa Fb NC Ha Hb. apply gen_full in Ha; [|exact Fa]. apply gen_full in Hb; [|exact Fb].
  assert (E : (id_identifier a ++ pub_of a)%list = (id_identifier b ++ pub_of b)%list) by (apply NC; congruence).
  apply app_inj_length_l' in E; [exact E|]. pose proof (f_equal (@length _) E) as L. rewrite !app_length in L.
  unfold full_size, pub_of in *. lia.
Qed.
Lemma lex_gt_anti : forall a b, lex_gt a b = true -> lex_gt b a = false.
Proof.
  induction a as [|x a IH]; intros [|y b] H; cbn [lex_gt] in *; try reflexivity.
  rewrite (N.eqb_sym (b2n y)). destruct (b2n x =? b2n y) eqn:E; [apply IH, H|]. lia.
Qed.
Lemma larger_first_pair a b c d : length a = length b -> length c = length d -> length a = length c ->
  larger_first a b = larger_first c d -> (a = c /\ b = d) \/ (a = d /\ b = c).
Proof.
  unfold larger_first. intros L1 L2 L3 H.
  destruct (lex_gt a b), (lex_gt c d); apply app_inj_length_l' in H; try lia; destruct H; auto.
Qed.
Lemma bilateral_binds P f1 f2 g1 g2 h :
  (forall x, In x [f1; f2; g1; g2] -> length (fp_data x) = 64%nat) ->
  no_collision P (larger_first (fp_data f1) (fp_data f2)) (larger_first (fp_data g1) (fp_data g2)) ->
  fingerprint_gen_bilateral P (Some f1) (Some f2) FP_SHA512 = Some h ->
  fingerprint_gen_bilateral P (Some g1) (Some g2) FP_SHA512 = Some h ->
  (fp_data f1 = fp_data g1 /\ fp_data f2 = fp_data g2) \/ (fp_data f1 = fp_data g2 /\ fp_data f2 = fp_data g1).
Proof.
  intros L NC Hf Hg.
  assert (L1 := L f1 ltac:(cbn; auto)). assert (L2 := L f2 ltac:(cbn; auto)). assert (L3 := L g1 ltac:(cbn; auto)). assert (L4 := L g2 ltac:(cbn; auto)).
  destruct (bytes_eq_dec (fp_data f1) (fp_data f2)) as [E|E]; [rewrite bilateral_equal in Hf by exact E; discriminate|].
  destruct (bytes_eq_dec (fp_data g1) (fp_data g2)) as [E'|E']; [rewrite bilateral_equal in Hg by exact E'; discriminate|].
  rewrite bilateral_value in Hf, Hg by (congruence || (unfold within_limit, library_limit, blen; lia)).
  apply larger_first_pair; try congruence. apply NC. apply Some_inj in Hf, Hg. subst h.
  apply (f_equal fp_data) in Hg. cbn [fp_data] in Hg. congruence.
Qed.
