From Verif.Base Require Import Bytes Monad.
From Verif.Model Require Import Buffer Cipher Ecdsa Kdf Prims Engine.
From Verif.Spec Require Import BufferSpec CodecSpec EngineSpec.
From Verif.Proofs Require Import BytesFacts BufferFacts BufferProps CodecFacts.
From Coq Require Import ZifyBool ZifyNat ZifyN.
Ltac Zify.zify_post_hook ::= Z.div_mod_to_equations.
Local Open Scope N_scope.

Lemma rbind_Val {A B} (x : res A) (f : A -> res B) b : rbind x f = Val b -> exists a, x = Val a /\ f a = Val b.
Proof. destruct x; cbn; intros H; try discriminate. eauto. Qed.
Lemma lift_Val' {A} (o : option A) a : lift o = Val a -> o = Some a.
Proof. destruct o; cbn; intros H; [injection H as ->; reflexivity|discriminate]. Qed.

(* split a successful computation into its steps *)
Ltac step1 H :=
  match type of H with
  | mbind _ _ _ = (Val _, _) => let a := fresh "a" in let s := fresh "s" in let H1 := fresh "S" in
      apply mbind_Val in H; destruct H as (a & s & H1 & H)
  | mlift _ _ = (Val _, _) => apply mlift_Val in H; destruct H as [H ?]
  | mres _ _ = (Val _, _) => apply mres_Val in H; destruct H as [H ?]
  | mret _ _ = (Val _, _) => apply mres_Val in H; destruct H as [H ?]
  | rbind _ _ = Val _ => let a := fresh "a" in let H1 := fresh "S" in
      apply rbind_Val in H; destruct H as (a & H1 & H)
  | lift _ = Val _ => apply lift_Val' in H
  end.

Section Facts.
Context (P : prims).

Lemma crypto_random_Val len s b s' : crypto_random P len s = (Val b, s') -> p_rand P s len = Some b /\ s' = S s.
Proof.
  unfold crypto_random. destruct (INT_MAX <? len); [discriminate|]. destruct (negb (size_ok len)); [discriminate|].
  intros H. injection H as H <-. apply lift_Val' in H. auto.
Qed.

Lemma firstn_blen (b : bytes) n : blen b = n -> firstn (N.to_nat n) b = b.
Proof. intros <-. unfold blen. rewrite Nat2N.id. apply firstn_all. Qed.

(* what a successful encryption returns *)
Lemma encrypt_Val pt aad key iv s r s' : aes256_encrypt P (Some pt) aad (Some key) iv s = (Val r, s') ->
  blen (ck_data key) = 32 /\ blen (obytes aad) <= INT_MAX /\ blen pt + 1 <= MAX_BUFFER_SIZE /\
  blen (cr_iv r) = iv_len (ck_cipher key) /\ cr_cipher r = ck_cipher key /\
  (aad <> None -> ck_cipher key = AES256_GCM) /\
  match iv with Some v => cr_iv r = v | None => p_rand P s (iv_len (ck_cipher key)) = Some (cr_iv r) end /\
  match ck_cipher key with
  | AES256_GCM => cr_text r = Some (fst (p_gcm_enc P (ck_data key) (cr_iv r) (obytes aad) pt)) /\
      cr_tag r = Some (snd (p_gcm_enc P (ck_data key) (cr_iv r) (obytes aad) pt)) /\
      blen (snd (p_gcm_enc P (ck_data key) (cr_iv r) (obytes aad) pt)) = 16
  | AES256_CTR => cr_text r = Some (p_ctr P (ck_data key) (cr_iv r) pt) /\ cr_tag r = None
  end.
Proof.
  unfold aes256_encrypt.
  destruct (match aad with Some _ => negb (is_authenticated (ck_cipher key)) | None => false end) eqn:Ea; [discriminate|].
  destruct (negb (blen (ck_data key) =? key_len (ck_cipher key)) || (INT_MAX <? blen pt)) eqn:Ek; [discriminate|].
  rewrite key_len_32 in Ek. intros H. step1 H. destruct a as [v|]; [|discriminate].
  destruct (negb (size_ok (blen pt + 1))) eqn:Es; [discriminate|].
  destruct (blen v <? iv_len (ck_cipher key)) eqn:Ev; [discriminate|].
  destruct (INT_MAX <? blen (obytes aad)) eqn:Eb; [discriminate|].
  assert (Hr : blen v = iv_len (ck_cipher key) -> firstn (N.to_nat (iv_len (ck_cipher key))) v = v) by apply firstn_blen.
  assert (Hiv : match iv with Some v0 => v = v0 | None => p_rand P s (iv_len (ck_cipher key)) = Some v end).
  { destruct iv as [v0|].
    - apply mres_Val in S. destruct S as [S _]. apply Val_inj in S. apply buffer_copy_Some in S. destruct S as [S _]. apply Some_inj in S. auto.
    - apply mtry_Val in S. apply crypto_random_Val in S. apply S. }
  assert (Haad : aad <> None -> ck_cipher key = AES256_GCM).
  { intros Hn. destruct aad as [x|]; [|congruence]. destruct (ck_cipher key); [reflexivity|discriminate]. }
  assert (Hsz : blen pt + 1 <= MAX_BUFFER_SIZE) by (unfold size_ok in Es; lia).
  destruct (ck_cipher key) eqn:Ec; step1 H; apply result_create_good in H; destruct H as (-> & Hl & Ht); cbn [cr_cipher cr_iv cr_text cr_tag];
    rewrite (Hr Hl) in *.
  - destruct Ht as (t & Ht1 & Ht2). apply Some_inj in Ht1. subst t.
    repeat split; try assumption; try lia; try reflexivity.
  - repeat split; try assumption; try lia; try reflexivity.
Qed.

Lemma encrypt_good pt aad key iv s r s' : ctr_ok P -> aead_ok P -> pt <> [] ->
  aes256_encrypt P (Some pt) aad (Some key) iv s = (Val r, s') ->
  good_result r /\ blen (bytes_of (cr_text r)) = blen pt.
Proof.
  intros HC HA Hne H. apply encrypt_Val in H. destruct H as (_ & _ & _ & Hiv & Hc & _ & _ & H).
  assert (Hp : (0 < length pt)%nat) by (destruct pt; [congruence|cbn; lia]).
  unfold good_result. rewrite Hc. destruct (ck_cipher key).
  - destruct H as (-> & -> & Ht). destruct (HA (ck_data key) (cr_iv r) (obytes aad) pt) as (L1 & L2 & _).
    split; [|unfold blen; cbn [bytes_of]; lia]. split.
    + split; [apply blen_nat; exact Hiv|]. eexists. split; [reflexivity|exact L2].
    + intros E. apply Some_inj in E. rewrite E in L1. cbn in L1. lia.
  - destruct H as (-> & ->). destruct (HC (ck_data key) (cr_iv r) pt) as (L1 & _).
    split; [|unfold blen; cbn [bytes_of]; lia]. split.
    + split; [apply blen_nat; exact Hiv|reflexivity].
    + intros E. apply Some_inj in E. rewrite E in L1. cbn in L1. lia.
Qed.

Lemma decrypt_encrypt pt aad key iv s r s' oa : ctr_ok P -> aead_ok P -> pt <> [] ->
  (oa = true -> ck_cipher key = AES256_GCM) ->
  aes256_encrypt P (Some pt) aad (Some key) iv s = (Val r, s') ->
  aes256_decrypt P (Some r) aad (Some key) oa = Val pt.
Proof.
  intros HC HA Hne Hoa H. pose proof (encrypt_good _ _ _ _ _ _ _ HC HA Hne H) as [G HL].
  apply encrypt_Val in H. destruct H as (Hk & Ha & Hs & Hiv & Hc & Had & _ & H).
  assert (Hp : 0 < blen pt) by (destruct pt; [congruence|rewrite blen_cons; lia]).
  unfold aes256_decrypt. destruct (cr_text r) as [ct|] eqn:Et.
  2:{ destruct (ck_cipher key); destruct H as [H _]; discriminate. }
  cbn [bytes_of] in HL. rewrite Hc.
  replace (oa && negb (is_authenticated (ck_cipher key))) with false.
  2:{ destruct oa; [rewrite Hoa by reflexivity; reflexivity|reflexivity]. }
  replace (match aad with Some _ => negb (is_authenticated (ck_cipher key)) | None => false end) with false.
  2:{ destruct aad; [rewrite Had by discriminate; reflexivity|reflexivity]. }
  rewrite N.eqb_refl, HL, key_len_32, Hk, Hiv, !N.ltb_irrefl. cbn [negb orb].
  replace (INT_MAX <? blen pt) with false by (unfold INT_MAX, MAX_BUFFER_SIZE in *; lia).
  replace (size_ok (blen pt)) with true by (unfold size_ok, MAX_BUFFER_SIZE in *; lia). cbn [negb].
  rewrite (firstn_blen (cr_iv r)) by exact Hiv. rewrite (firstn_blen (ck_data key)) by exact Hk.
  assert (Hadd : match aad with Some x => if blen x <=? INT_MAX then x else [] | None => [] end = obytes aad).
  { destruct aad as [x|]; [|reflexivity]. cbn [obytes] in *. destruct (N.leb_spec (blen x) INT_MAX); [reflexivity|lia]. }
  rewrite Hadd. destruct (ck_cipher key).
  - destruct H as (H1 & H2 & H3). rewrite H2. cbn [is_authenticated andb auth_tag_len obytes]. rewrite H3, N.eqb_refl. cbn [negb].
    apply Some_inj in H1. rewrite H1. destruct (HA (ck_data key) (cr_iv r) (obytes aad) pt) as (_ & _ & ->). reflexivity.
  - destruct H as (H1 & H2). apply Some_inj in H1. rewrite H1. destruct (HC (ck_data key) (cr_iv r) pt) as (_ & ->). reflexivity.
Qed.

(* when encryption succeeds *)
Lemma encrypt_succeeds pt aad key iv s : aead_ok P -> good_key key -> blen pt < library_limit ->
  (aad <> None -> ck_cipher key = AES256_GCM) -> blen (obytes aad) <= library_limit ->
  match iv with
  | Some v => blen v = iv_len (ck_cipher key)
  | None => exists v, p_rand P s (iv_len (ck_cipher key)) = Some v /\ blen v = iv_len (ck_cipher key)
  end ->
  exists r s', aes256_encrypt P (Some pt) aad (Some key) iv s = (Val r, s').
Proof.
  intros HA Hk Hp Haad Hal Hiv. apply good_key_len in Hk. unfold library_limit in *. unfold aes256_encrypt.
  replace (match aad with Some _ => negb (is_authenticated (ck_cipher key)) | None => false end) with false.
  2:{ destruct aad; [rewrite Haad by discriminate; reflexivity|reflexivity]. }
  rewrite Hk, key_len_32. replace (negb (32 =? 32) || (INT_MAX <? blen pt)) with false by (unfold INT_MAX; lia).
  assert (Civ : 0 < iv_len (ck_cipher key) <= 16) by (destruct (ck_cipher key); cbn; lia).
  assert (S : exists v s1, (match iv with Some v => mret (buffer_copy (Some v)) | None => mtry (crypto_random P (iv_len (ck_cipher key))) end) s = (Val (Some v), s1)
     /\ blen v = iv_len (ck_cipher key)).
  { destruct iv as [v|].
    - exists v, s. rewrite (copy_limit v) by (unfold within_limit, library_limit; lia). auto.
    - destruct Hiv as (v & Hv & Hl). exists v, (S s). unfold mtry, crypto_random.
      replace (INT_MAX <? iv_len (ck_cipher key)) with false by (unfold INT_MAX; lia).
      replace (size_ok (iv_len (ck_cipher key))) with true by (unfold size_ok, MAX_BUFFER_SIZE; lia). cbn [negb]. rewrite Hv. auto. }
  destruct S as (v & s1 & S & Hl). unfold mbind. rewrite S. replace (size_ok (blen pt + 1)) with true by (unfold size_ok, MAX_BUFFER_SIZE; lia).
  cbn [negb]. rewrite Hl, N.ltb_irrefl. replace (INT_MAX <? blen (obytes aad)) with false by (unfold INT_MAX; lia).
  rewrite (firstn_blen v) by exact Hl. destruct (ck_cipher key).
  - destruct (HA (ck_data key) v (obytes aad) pt) as (_ & L2 & _). unfold cipher_result_create. rewrite Hl, N.eqb_refl.
    cbn [negb is_authenticated andb auth_tag_len].
    replace (blen (snd (p_gcm_enc P (ck_data key) v (obytes aad) pt))) with 16 by (unfold blen; rewrite L2; reflexivity).
    rewrite N.eqb_refl. cbn [negb]. eexists; eexists; reflexivity.
  - unfold cipher_result_create. rewrite Hl, N.eqb_refl. cbn [negb is_authenticated andb]. eexists; eexists; reflexivity.
Qed.

Lemma decrypt_serialized pt aad key iv oa s r s' b : ctr_ok P -> aead_ok P -> pt <> [] ->
  (oa = true -> ck_cipher key = AES256_GCM) ->
  aes256_encrypt P (Some pt) aad (Some key) iv s = (Val r, s') ->
  cipher_result_serialize (Some r) = Some b ->
  exists r', cipher_result_from_buffer (Some b) = Val r' /\ aes256_decrypt P (Some r') aad (Some key) oa = Val pt.
Proof.
  intros HC HA Hne Hoa H Hs. pose proof (encrypt_good _ _ _ _ _ _ _ HC HA Hne H) as [G _].
  assert (L : within_limit (blen (result_wire r)) \/ library_limit < blen (result_wire r)).
  { unfold within_limit. rewrite (result_wire_eq r G), blen_cons. lia. }
  destruct L as [L|L].
  - rewrite (result_serialize_ok r G L) in Hs. apply Some_inj in Hs. subst b. exists r. split; [apply result_parse_ok; assumption|].
    eapply decrypt_encrypt; eassumption.
  - rewrite (result_too_big r L G) in Hs. discriminate.
Qed.

(* C15 *)
Lemma decrypt_only_auth r aad key : cr_cipher r <> AES256_GCM -> aes256_decrypt P (Some r) aad key true = Null.
Proof.
  intros Hc. unfold aes256_decrypt. destruct key as [k|]; [|reflexivity]. destruct (cr_text r); [|reflexivity].
  destruct (cr_cipher r); [congruence|reflexivity].
Qed.
Lemma decrypt_opened r aad key v : good_key key -> good_result r -> (forall x, aad = Some x -> blen x <= INT_MAX) ->
  aes256_decrypt P (Some r) aad (Some key) true = Val v -> ck_cipher key = AES256_GCM /\ opened P r (ck_data key) (bytes_of aad) v.
Proof.
  intros Hk [Hr _] Ha. apply good_key_len in Hk. destruct (cr_cipher r) eqn:Ec.
  2:{ rewrite decrypt_only_auth by congruence. discriminate. }
  destruct Hr as (Hiv & t & Ht & Htl). unfold aes256_decrypt. destruct (cr_text r) as [ct|] eqn:Et; [|discriminate].
  rewrite Ec. cbn [is_authenticated negb andb key_len iv_len]. destruct (match aad with Some _ => false | None => false end) eqn:E; [destruct aad; discriminate|].
  destruct (N.eqb_spec (cipher_id (ck_cipher key)) (cipher_id AES256_GCM)) as [Ei|]; [|discriminate]. cbn [negb orb].
  destruct (INT_MAX <? blen ct); [discriminate|]. rewrite Ht. destruct (negb (blen t =? auth_tag_len AES256_GCM)); [discriminate|].
  destruct (negb (size_ok (blen ct))); [discriminate|]. apply blen_nat in Hiv. change (N.of_nat 12) with 12 in Hiv. rewrite Hk, Hiv, !N.ltb_irrefl. cbn [orb].
  rewrite (firstn_blen (ck_data key)) by exact Hk. rewrite (firstn_blen (cr_iv r)) by exact Hiv.
  assert (Hadd : match aad with Some x => if blen x <=? INT_MAX then x else [] | None => [] end = bytes_of aad).
  { destruct aad as [x|]; [|reflexivity]. specialize (Ha x eq_refl). destruct (N.leb_spec (blen x) INT_MAX); [reflexivity|lia]. }
  rewrite Hadd. intros H. apply lift_Val' in H. split; [destruct (ck_cipher key); [reflexivity|discriminate]|]. split; [exact Ec|].
  exists ct, t. auto.
Qed.

(* decryption is safe with a well-formed key and result *)
Lemma decrypt_safe r aad key oa : good_key key -> good_result r -> aes256_decrypt P (Some r) aad (Some key) oa <> UB.
Proof.
  intros Hk [Hr _]. apply good_key_len in Hk. unfold aes256_decrypt. destruct (cr_text r) as [ct|]; [|discriminate].
  destruct (oa && _); [discriminate|]. destruct (match aad with Some _ => _ | None => _ end); [discriminate|].
  destruct (negb _ || _); [discriminate|]. destruct (is_authenticated _ && _); [discriminate|]. destruct (negb _); [discriminate|].
  rewrite key_len_32, Hk, N.ltb_irrefl. cbn [orb].
  assert (Hiv : blen (cr_iv r) = iv_len (cr_cipher r)) by (destruct (cr_cipher r); destruct Hr as [Hr _]; apply blen_nat in Hr; exact Hr).
  rewrite Hiv, N.ltb_irrefl. destruct (cr_cipher r); [apply lift_notUB|discriminate].
Qed.

(* kdf *)
Lemma kdf_meta_copy_Some m m' : kdf_meta_copy (Some m) = Some m' -> m' = m.
Proof.
  unfold kdf_meta_copy. destruct (copy_opt (km_salt m)) as [s|] eqn:Es; [|discriminate]. destruct (copy_opt (km_info m)) as [i|] eqn:Ei; [|discriminate].
  assert (C : forall o o', copy_opt o = Some o' -> o' = o).
  { intros o o' H. unfold copy_opt in H. destruct o as [x|]; [|congruence]. destruct (buffer_copy (Some x)) as [y|] eqn:E; [|discriminate].
    apply buffer_copy_Some in E. destruct E as [E _]. congruence. }
  apply C in Es, Ei. subst s i. unfold kdf_meta_create.
  destruct (ka_kind (km_algo m)); destruct m as [a s i]; cbn [km_algo km_salt km_info] in *; destruct s, i; try discriminate;
    repeat match goal with |- context [if ?c then _ else _] => destruct c end; try discriminate; intros H; apply Some_inj in H; congruence.
Qed.
Lemma perform_kdf_meta_Val m p kr : perform_kdf_meta P (Some m) (Some p) = Val kr ->
  kr_meta kr = m /\ kdf_algo_hash P m p = Val (kr_hash kr).
Proof.
  unfold perform_kdf_meta. intros H. step1 H. step1 H. apply lift_Val' in S0. apply kdf_meta_copy_Some in S0. subst a0.
  cbn [kdf_result_create lift] in H. apply Val_inj in H. subst kr. auto.
Qed.
Lemma kdf_meta_copy_valid a s m : ka_kind a <> KDF_HMAC_SHA2 -> kdf_meta_copy (Some {| km_algo := a; km_salt := Some s; km_info := None |}) = Some m ->
  blen s = ka_salt_size a.
Proof.
  intros Hk. unfold kdf_meta_copy. cbn [km_algo km_salt km_info copy_opt]. destruct (buffer_copy (Some s)) as [s'|] eqn:E; [|discriminate].
  apply buffer_copy_Some in E. destruct E as [E _]. apply Some_inj in E. subst s'. unfold kdf_meta_create.
  destruct (ka_kind a); [| |congruence]; (destruct (N.eqb_spec (blen s) (ka_salt_size a)); [auto|discriminate]).
Qed.

Lemma is_scrypt_in a : is_scrypt a -> In a [KDF_SCRYPT_2_17; KDF_SCRYPT_2_18; KDF_SCRYPT_2_19; KDF_SCRYPT_2_20; KDF_BCRYPT_15].
Proof. unfold is_scrypt. cbn [In]. tauto. Qed.
Lemma is_scrypt_kind a : is_scrypt a -> ka_kind a = KDF_SCRYPT /\ ka_output_size a = 32.
Proof. intros H. cbn [is_scrypt In] in H. unfold is_scrypt in H. cbn [In] in H. repeat destruct H as [<-|H]; try contradiction; auto. Qed.

(* shape of a successful wrap *)
Lemma kdf_cipher_Val a c v p s b s' : is_scrypt a -> ctr_ok P -> aead_ok P -> v <> [] ->
  kdf_cipher P a c (Some v) (Some p) s = (Val b, s') ->
  exists m r key s1, good_kdf_meta m /\ km_algo m = a /\ good_result r /\ b = (kdf_wire m ++ result_wire r)%list /\ within_limit (blen b) /\
    kdf_algo_hash P m p = Val key /\ c = AES256_GCM /\ blen key = 32 /\
    aes256_encrypt P (Some v) None (Some {| ck_cipher := c; ck_data := key |}) None s1 = (Val r, s').
Proof.
  intros Ha HC HA Hv. unfold kdf_cipher. destruct (negb (kdf_kind_eqb (ka_kind a) KDF_SCRYPT) || negb (is_authenticated c) || negb (ka_output_size a =? key_len c)) eqn:E0; [discriminate|].
  intros H. step1 H. rename a0 into kr. step1 H. rename a0 into r. step1 H. rename a0 into ser. step1 S1. subst s2.
  step1 H. rename a0 into meta. step1 S2. subst s2. step1 H. subst s'.
  unfold perform_kdf in S. step1 S. rename a0 into salt. step1 S. subst s0.
  assert (Hsl : blen salt = ka_salt_size a).
  { unfold perform_kdf_meta in S. apply rbind_Val in S. destruct S as (h & _ & S). apply rbind_Val in S. destruct S as (mm & Sm & _).
    apply lift_Val' in Sm. eapply kdf_meta_copy_valid; [|exact Sm].
    rewrite (proj1 (is_scrypt_kind a Ha)). discriminate. }
  apply perform_kdf_meta_Val in S. destruct S as [Hm Hh].
  destruct (encrypt_good _ _ _ _ _ _ _ HC HA Hv S0) as [G _].
  pose proof (encrypt_Val _ _ _ _ _ _ _ S0) as (Hk & _). cbn [ck_data] in Hk.
  assert (Gm : good_kdf_meta (kr_meta kr)).
  { rewrite Hm. split; [apply is_scrypt_in, Ha|]. split; [reflexivity|]. exists salt. auto. }
  rewrite (kdf_serialize_ok _ Gm) in S2. apply Some_inj in S2. subst meta.
  apply buffer_concat_Some in H. destruct H as [-> Hs].
  assert (Hser : ser = result_wire r).
  { assert (Hlim : within_limit (blen (result_wire r)) \/ library_limit < blen (result_wire r)).
    { unfold within_limit. rewrite (result_wire_eq r G), blen_cons. lia. }
    destruct Hlim as [Hl|Hl].
    - rewrite (result_serialize_ok r G Hl) in S1. apply Some_inj in S1. auto.
    - rewrite (result_too_big r Hl G) in S1. discriminate. }
  subst ser. assert (Hc : c = AES256_GCM) by (destruct c; [reflexivity|cbn in E0; rewrite orb_true_r in E0; discriminate]).
  eexists (kr_meta kr), r, (kr_hash kr), _. split; [exact Gm|]. split; [rewrite Hm; reflexivity|]. split; [exact G|]. split; [reflexivity|].
  split; [exact Hs|]. split; [rewrite Hm; exact Hh|]. split; [exact Hc|]. split; [exact Hk|exact S0].
Qed.

Lemma kdf_decipher_wire m r p : good_kdf_meta m -> good_result r -> within_limit (blen (kdf_wire m ++ result_wire r)) ->
  kdf_decipher P (Some (kdf_wire m ++ result_wire r)%list) (Some p) =
  rbind (perform_kdf_meta P (Some m) (Some p)) (fun kr =>
    rbind (lift (cipher_key_from_kdf (Some kr) (cr_cipher r))) (fun key => aes256_decrypt P (Some r) None (Some key) true)).
Proof.
  intros Gm Gr L. unfold within_limit in L. unfold kdf_decipher. rewrite blen_app in L.
  assert (Lr : blen (result_wire r) <= library_limit) by lia. assert (Lr1 : 1 <= blen (result_wire r)) by (rewrite (result_wire_eq r Gr), blen_cons; lia).
  destruct (kdf_parse_ok m (result_wire r) Gm Lr) as [K1 K2].
  rewrite K2. cbn [rbind]. rewrite blen_app.
  assert (Lk : 1 <= blen (kdf_wire m)) by (unfold kdf_wire; rewrite blen_cons; lia).
  replace (negb ((blen (kdf_wire m) =? 0) || (blen (kdf_wire m) + blen (result_wire r) <=? blen (kdf_wire m)))) with true by lia.
  rewrite K1. cbn [rbind]. replace (skipn (N.to_nat (blen (kdf_wire m))) (kdf_wire m ++ result_wire r)) with (result_wire r).
  2:{ unfold blen. rewrite Nat2N.id, skipn_app, skipn_all, Nat.sub_diag. reflexivity. }
  rewrite (result_parse_ok r Gr) by (unfold within_limit; lia). reflexivity.
Qed.
Lemma kdf_meta_copy_ok m : good_kdf_meta m -> kdf_meta_copy (Some m) = Some m.
Proof.
  intros (Ha & Hi & s & Hs & Hl). destruct (kdf_find_id _ Ha) as (_ & Hsz & Hk). unfold kdf_meta_copy. rewrite Hs, Hi. cbn [copy_opt].
  rewrite copy_limit by (unfold within_limit, library_limit; lia). unfold kdf_meta_create.
  destruct m as [a sa i]. cbn [km_algo km_salt km_info] in *. subst. destruct (ka_kind a); [| |congruence]; rewrite Hl, N.eqb_refl; reflexivity.
Qed.
Lemma kdf_unwrap a c v p s b s' : is_scrypt a -> ctr_ok P -> aead_ok P -> v <> [] ->
  kdf_cipher P a c (Some v) (Some p) s = (Val b, s') -> kdf_decipher P (Some b) (Some p) = Val v.
Proof.
  intros Ha HC HA Hv H. destruct (kdf_cipher_Val _ _ _ _ _ _ _ Ha HC HA Hv H) as (m & r & key & s1 & Gm & Hma & Gr & -> & L & Hh & -> & Hk & He).
  rewrite (kdf_decipher_wire m r p Gm Gr L). unfold perform_kdf_meta. rewrite Hh. cbn [rbind]. rewrite (kdf_meta_copy_ok m Gm).
  cbn [lift rbind kdf_result_create]. unfold cipher_key_from_kdf. cbn [kr_hash]. rewrite Hk, key_len_32, N.eqb_refl. cbn [negb].
  rewrite copy_limit by (unfold within_limit, library_limit; lia). unfold cipher_key_create. rewrite Hk, key_len_32, N.eqb_refl. cbn [negb lift rbind].
  pose proof (encrypt_Val _ _ _ _ _ _ _ He) as (_ & _ & _ & _ & Hc & _). cbn [ck_cipher] in Hc. rewrite Hc.
  eapply decrypt_encrypt; try eassumption. reflexivity.
Qed.

Lemma kdf_wrap_succeeds a v p s salt iv key : is_scrypt a -> aead_ok P -> ctr_ok P -> v <> [] -> blen v + 1000 <= library_limit ->
  p_rand P s 16 = Some salt -> blen salt = 16 -> p_rand P (S s) 12 = Some iv -> blen iv = 12 ->
  kdf_algo_hash P {| km_algo := a; km_salt := Some salt; km_info := None |} p = Val key -> blen key = 32 ->
  exists b, kdf_cipher P a AES256_GCM (Some v) (Some p) s = (Val b, S (S s)).
Proof.
  intros Ha HA HC Hv Hl Hs Hsl Hi Hil Hh Hk. destruct (is_scrypt_kind a Ha) as [Hkind Hout]. unfold library_limit in Hl.
  assert (Hss : ka_salt_size a = 16) by (unfold is_scrypt in Ha; cbn [In] in Ha; repeat destruct Ha as [<-|Ha]; try contradiction; reflexivity).
  unfold kdf_cipher. rewrite Hkind, Hout, key_len_32, N.eqb_refl. cbn [kdf_kind_eqb is_authenticated negb orb].
  assert (E1 : perform_kdf P a (Some p) s = (Val {| kr_meta := {| km_algo := a; km_salt := Some salt; km_info := None |}; kr_hash := key |}, S s)).
  { unfold perform_kdf, kdf_algo_generate_salt, mbind. rewrite Hkind, Hss. unfold crypto_random. cbn [N.ltb].
    replace (INT_MAX <? 16) with false by reflexivity. replace (negb (size_ok 16)) with false by reflexivity. rewrite Hs. cbn [lift].
    unfold mres, perform_kdf_meta. rewrite Hh. cbn [rbind].
    rewrite kdf_meta_copy_ok; [reflexivity|]. split; [apply is_scrypt_in, Ha|]. split; [reflexivity|]. exists salt. split; [reflexivity|]. cbn [km_algo]. congruence. }
  unfold mbind at 1. rewrite E1. cbn [kr_hash kr_meta].
  destruct (encrypt_succeeds v None {| ck_cipher := AES256_GCM; ck_data := key |} None (S s) HA) as (r & s' & He).
  { apply good_key_len. exact Hk. } { unfold library_limit. lia. } { intros H. exfalso. apply H. reflexivity. } { discriminate. } { exists iv. auto. }
  assert (Es' : s' = S (S s)).
  { revert He. unfold aes256_encrypt. cbn [ck_cipher ck_data is_authenticated]. rewrite Hk. destruct (negb _ || _); [discriminate|].
    unfold mbind, mtry, crypto_random. cbn [iv_len]. replace (INT_MAX <? 12) with false by reflexivity. replace (negb (size_ok 12)) with false by reflexivity.
    rewrite Hi. cbn [lift]. destruct (negb _); [discriminate|]. destruct (_ <? _); [discriminate|]. destruct (_ <? _); [discriminate|]. intros H. step1 H. congruence. }
  subst s'. unfold mbind at 1. rewrite He. destruct (encrypt_good _ _ _ _ _ _ _ HC HA Hv He) as [G HL].
  pose proof (encrypt_Val _ _ _ _ _ _ _ He) as (_ & _ & _ & Hiv & Hc & _). cbn [ck_cipher iv_len] in *.
  assert (Lr : blen (result_wire r) = 29 + blen v).
  { rewrite (result_wire_eq r G), blen_cons, !blen_app, HL, Hiv. destruct G as [G _]. rewrite Hc in G. destruct G as (_ & t & -> & Ht). cbn [bytes_of].
    apply blen_nat in Ht. lia. }
  assert (W : within_limit (blen (result_wire r))) by (unfold within_limit, library_limit; lia).
  rewrite (result_serialize_ok r G W). unfold mbind, mlift, mres. cbn [lift].
  rewrite kdf_serialize_ok. 2:{ split; [apply is_scrypt_in, Ha|]. split; [reflexivity|]. exists salt. split; [reflexivity|]. cbn [km_algo]. congruence. }
  cbn [lift]. eexists. unfold buffer_concat. rewrite create_limit; [reflexivity|]. unfold kdf_wire. cbn [km_salt bytes_of].
  rewrite blen_app, blen_cons, Lr, Hsl. unfold within_limit, library_limit. lia.
Qed.

(* C15 for wrapped data: whatever byte string is offered *)
Lemma skipn_app_exact {A} (l z : list A) n : n = length l -> skipn n (l ++ z) = z.
Proof. intros ->. rewrite skipn_app, skipn_all, Nat.sub_diag. reflexivity. Qed.
Lemma kdf_decipher_opened b p v : kdf_decipher P (Some b) (Some p) = Val v ->
  exists m r key, good_kdf_meta m /\ b = (kdf_wire m ++ result_wire r)%list /\ good_result r /\
    kdf_algo_hash P m p = Val key /\ blen key = 32 /\ opened P r key [] v.
Proof.
  unfold kdf_decipher. intros H. step1 H. rename a into n. destruct (negb ((n =? 0) || (blen b <=? n))) eqn:E; [|discriminate].
  step1 H. rename a into m. step1 H. rename a into kr. step1 H. rename a into r. step1 H. rename a into key.
  apply kdf_parse_inv in S0. destruct S0 as [Gm [rest Hb]].
  assert (Hn : n = blen (kdf_wire m)).
  { rewrite Hb in S. unfold kdf_meta_size_with_buffer in S. destruct (blen _ <=? 1) in S; [apply Val_inj in S; subst n; discriminate|].
    unfold kdf_wire in S. cbn [app] in S. rewrite rd_0 in S. cbn [rbind] in S. destruct Gm as (Ha & _ & sa & Hs & Hl).
    destruct (kdf_find_id _ Ha) as (Hf & Hsz & _). rewrite Hf in S. apply Val_inj in S. subst n. unfold kdf_wire. rewrite Hs. cbn [bytes_of]. rewrite blen_cons, Hl.
    apply N.mod_small. lia. }
  assert (Hrest : skipn (N.to_nat n) b = rest).
  { rewrite Hb. apply skipn_app_exact. rewrite Hn. unfold blen. apply Nat2N.id. }
  rewrite Hrest in S2. apply result_parse_inv in S2. destruct S2 as (Gr & Hrw & _). apply Some_inj in Hrw.
  apply perform_kdf_meta_Val in S1. destruct S1 as [Hm Hh]. apply lift_Val' in S3. unfold cipher_key_from_kdf in S3.
  destruct (N.eqb_spec (blen (kr_hash kr)) (key_len (cr_cipher r))) as [Hk|]; [|discriminate]. cbn [negb] in S3.
  destruct (buffer_copy (Some (kr_hash kr))) as [k|] eqn:Ek; [|discriminate]. apply buffer_copy_Some in Ek. destruct Ek as [Ek _]. apply Some_inj in Ek. subst k.
  unfold cipher_key_create in S3. rewrite Hk, N.eqb_refl in S3. cbn [negb] in S3. apply Some_inj in S3. subst key. rewrite key_len_32 in Hk.
  apply decrypt_opened in H; [|apply good_key_len; exact Hk|exact Gr|discriminate]. destruct H as [_ H]. cbn [ck_data bytes_of] in H.
  exists m, r, (kr_hash kr). rewrite Hb, Hrw. auto 10.
Qed.
End Facts.
