(* Facts about MACs, key derivation, fingerprint texts and rotation of key pairs. *)
From Coq Require Import ZifyBool ZifyNat ZifyN Strings.String.
From Verif.Base Require Import Bytes Monad.
From Verif.Model Require Import Buffer CString Hex Base32 Cipher Ecdsa Kdf Prims Engine Fingerprint Identity Node.
From Verif.Spec Require Import BufferSpec TextSpec EngineSpec IdentitySpec CopySpec HashSpec.
From Verif.Proofs Require IdentityFacts.
From Verif.Proofs Require Import BytesFacts BufferFacts BufferProps CodecFacts EngineFacts TextSafety TextProps CopyFacts.
Local Open Scope N_scope.

Lemma hmac_created P d k x : hmac_ok P -> hmac_create P (Some x) (Some k) d = Some (p_hmac P d k x).
Proof. intros H. unfold hmac_create. rewrite H, N.eqb_refl. reflexivity. Qed.
Lemma hmac_verified P d k x e : hmac_ok P -> (hmac_verify P (Some x) (Some k) d (Some e) = true <-> e = p_hmac P d k x).
Proof.
  intros H. unfold hmac_verify. rewrite hmac_created by exact H. unfold buffer_is_equal. split.
  - intros E. apply andb_prop in E. symmetry. apply beqb_spec. apply E.
  - intros ->. rewrite N.eqb_refl, beqb_refl. reflexivity.
Qed.
Lemma hmac_null P d e : (forall k, hmac_verify P None k d e = false) /\ (forall x, hmac_verify P x None d e = false) /\
  (forall x k, hmac_verify P x k d None = false).
Proof.
  split; [|split].
  - intros k. unfold hmac_verify. destruct e; reflexivity.
  - intros x. unfold hmac_verify, hmac_create. destruct e, x; reflexivity.
  - intros x k. reflexivity.
Qed.

Lemma until_nul_c_string b : c_string b (until_nul b).
Proof.
  induction b as [|c b (NN & IH)]; [split; [intros []|left; reflexivity]|]. cbn [until_nul].
  destruct (Byte.eqb c x00) eqn:E.
  - split; [intros []|]. right. exists b. apply Byte.byte_dec_bl in E. subst c. reflexivity.
  - split.
    + intros [H|H]; [|exact (NN H)]. subst c. discriminate E.
    + destruct IH as [IH|(rest & IH)]; [left; rewrite <- IH; reflexivity|right; exists rest; cbn [app]; rewrite <- IH; reflexivity].
Qed.
Lemma scrypt_hash P a m pass h N0 : km_algo m = a -> ka_output_size a = 32 ->
  N.land (ka_cost a) 255 = 1 -> N.land (N.shiftr (ka_cost a) 8) 255 = 8 -> N.shiftl 1 (N.shiftr (ka_cost a) 16) = N0 ->
  scrypt_generate_hash P m pass = Val h -> exists salt, km_salt m = Some salt /\ p_scrypt P pass salt N0 8 1 32 = Some h.
Proof.
  intros <- HO HP HR HN. unfold scrypt_generate_hash. rewrite HO, HP, HR, HN. change (size_ok 32) with true. cbn [negb]. cbv iota.
  destruct (km_salt m) as [salt|]; [|discriminate]. intros E. exists salt. split; [reflexivity|].
  destruct (p_scrypt P pass salt N0 8 1 32); [injection E as <-; reflexivity|discriminate E].
Qed.
Lemma bcrypt_hash P m pass h : bcrypt_generate_hash P m pass = Val h ->
  exists salt out, km_salt m = Some salt /\ p_crypt P (until_nul pass) (until_nul (bcrypt_header ++ salt)) = Some out /\ h = until_nul out.
Proof.
  unfold bcrypt_generate_hash. destruct (negb _); [discriminate|]. destruct (km_salt m) as [salt|]; [|discriminate].
  destruct ((1 <=? blen salt) && _); [|discriminate]. destruct (size_ok _ && _); [|discriminate]. destruct (_ <? 64); [|discriminate].
  destruct (p_crypt _ _ _) as [out|] eqn:E; [|discriminate]. cbn [lift rbind]. unfold buffer_create. destruct (size_ok _); [|discriminate].
  intros H. injection H as <-. exists salt, out. auto.
Qed.
Lemma hkdf_value P ikm salt info d n h : hkdf P (Some ikm) salt info d n = Some h -> p_hkdf P d (or_empty salt) ikm (or_empty info) n = Some h.
Proof.
  unfold hkdf, hkdf_internal. destruct (match info with Some i => 1024 <? blen i | None => false end); [discriminate|].
  destruct (match salt with Some i => INT_MAX <? blen i | None => false end); [discriminate|].
  destruct (INT_MAX <? blen ikm); [discriminate|]. destruct (negb (size_ok n)); [discriminate|]. exact (fun x => x).
Qed.
Lemma hkdf_expand_value P ikm info d n h : hkdf_expand P (Some ikm) info d n = Some h -> p_hkdf_expand P d ikm (or_empty info) n = Some h.
Proof.
  unfold hkdf_expand, hkdf_internal. destruct (match info with Some i => 1024 <? blen i | None => false end); [discriminate|].
  destruct (INT_MAX <? blen ikm); [discriminate|]. destruct (negb (size_ok n)); [discriminate|]. exact (fun x => x).
Qed.
Lemma lift_val {A} (o : option A) a : lift o = Val a -> o = Some a.
Proof. destruct o; [intros H; injection H as ->; reflexivity|discriminate]. Qed.
Lemma algo_hash P m pass h : library_algo (km_algo m) -> kdf_algo_hash P m pass = Val h ->
  hash_of P pass (ka_id (km_algo m)) (km_salt m) (km_info m) (ka_output_size (km_algo m)) h.
Proof.
  intros L E. unfold kdf_algo_hash in E. destruct L as [L|(n & L)].
  - cbn [In] in L. destruct L as [L|[L|[L|[L|[L|[L|[L|[L|[]]]]]]]]]; rewrite <- L in E |- *; cbn [ka_kind ka_id] in E |- *.
    + cbn [ka_kind KDF_SCRYPT_2_17] in E. eapply scrypt_hash in E; [|symmetry; exact L|reflexivity..]. destruct E as (salt & -> & E). apply scrypt_2_17. exact E.
    + cbn [ka_kind KDF_SCRYPT_2_18] in E. eapply scrypt_hash in E; [|symmetry; exact L|reflexivity..]. destruct E as (salt & -> & E). apply scrypt_2_18. exact E.
    + cbn [ka_kind KDF_SCRYPT_2_19] in E. eapply scrypt_hash in E; [|symmetry; exact L|reflexivity..]. destruct E as (salt & -> & E). apply scrypt_2_19. exact E.
    + cbn [ka_kind KDF_SCRYPT_2_20] in E. eapply scrypt_hash in E; [|symmetry; exact L|reflexivity..]. destruct E as (salt & -> & E). apply scrypt_2_20. exact E.
    + cbn [ka_kind KDF_BCRYPT_15] in E. apply bcrypt_hash in E. destruct E as (salt & out & -> & E & ->).
      refine (bcrypt_15 P pass salt _ _ _ _ out _ _ _ E _); apply until_nul_c_string.
    + cbn [ka_kind KDF_HKDF_SHA256] in E. apply lift_val in E. unfold hkdf_generate_hash in E. rewrite <- L in E. apply hkdf_value in E. apply hkdf_256. exact E.
    + cbn [ka_kind KDF_HKDF_SHA384] in E. apply lift_val in E. unfold hkdf_generate_hash in E. rewrite <- L in E. apply hkdf_value in E. apply hkdf_384. exact E.
    + cbn [ka_kind KDF_HKDF_SHA512] in E. apply lift_val in E. unfold hkdf_generate_hash in E. rewrite <- L in E. apply hkdf_value in E. apply hkdf_512. exact E.
  - rewrite L in E |- *. cbn [ka_kind ka_id ka_output_size] in E |- *. apply lift_val in E. unfold hkdf_generate_hash in E. rewrite L in E.
    cbn [ka_id ka_output_size] in E. apply hkdf_expand_value in E. apply hkdf_expand_512. exact E.
Qed.
Lemma perform_meta P m pass r : library_algo (km_algo m) -> perform_kdf_meta P (Some m) (Some pass) = Val r ->
  kr_meta r = m /\ hash_of P pass (ka_id (km_algo m)) (km_salt m) (km_info m) (ka_output_size (km_algo m)) (kr_hash r).
Proof.
  intros L E. unfold perform_kdf_meta in E. destruct (kdf_algo_hash P m pass) as [h| |] eqn:H; try discriminate E. cbn [rbind] in E.
  destruct (kdf_meta_copy (Some m)) as [m'|] eqn:C; [|discriminate E]. cbn [lift rbind kdf_result_create] in E. injection E as <-. cbn [kr_meta kr_hash].
  split; [|apply algo_hash; assumption]. apply kdf_meta_copy_Some in C. exact C.
Qed.
(* a new hash *)
Lemma random_value P n i b j : crypto_random P n i = (Val b, j) -> p_rand P i n = Some b.
Proof.
  unfold crypto_random. destruct (INT_MAX <? n); [discriminate|]. destruct (negb (size_ok n)); [discriminate|].
  intros E. injection E as E _. apply lift_val in E. exact E.
Qed.
Lemma salt_fresh P a i s j : library_algo a -> kdf_algo_generate_salt P a i = (Val s, j) -> fresh_salt P i (ka_id a) s.
Proof.
  intros L E. destruct L as [L|(n & ->)].
  - cbn [In] in L. destruct L as [<-|[<-|[<-|[<-|[<-|[<-|[<-|[<-|[]]]]]]]]]; unfold kdf_algo_generate_salt in E; cbv [ka_kind ka_salt_size ka_cost KDF_SCRYPT_2_17 KDF_SCRYPT_2_18 KDF_SCRYPT_2_19 KDF_SCRYPT_2_20 KDF_BCRYPT_15 KDF_HKDF_SHA256 KDF_HKDF_SHA384 KDF_HKDF_SHA512] in E; cbn [ka_id KDF_SCRYPT_2_17 KDF_SCRYPT_2_18 KDF_SCRYPT_2_19 KDF_SCRYPT_2_20 KDF_BCRYPT_15 KDF_HKDF_SHA256 KDF_HKDF_SHA384 KDF_HKDF_SHA512].
    1-4: apply random_value in E; apply scrypt_salt; [lia|exact E].
    2: apply random_value in E; apply hkdf_256_salt; exact E.
    2: apply random_value in E; apply hkdf_384_salt; exact E.
    2: apply random_value in E; apply hkdf_512_salt; exact E.
    unfold bcrypt_generate_salt in E. unfold mbind in E. destruct (crypto_random P 16 i) as [[r| |] k] eqn:R; try discriminate E.
    apply random_value in R. destruct (p_gensalt P 15 r) as [setting|] eqn:G; [|discriminate E]. cbn in E.
    apply mlift_Val in E. destruct E as (E & _). apply copy_section_Some in E. destruct E as (E & LE & _).
    refine (bcrypt_salt P i r setting s R G _ _); [|unfold blen in LE; lia].
    rewrite E. unfold slice. change (N.to_nat (22 + 7)) with (7 + 22)%nat. change (N.to_nat 7) with 7%nat. change (N.to_nat 22) with 22%nat.
    rewrite <- firstn_skipn_comm, firstn_firstn. reflexivity.
  - unfold kdf_algo_generate_salt in E. cbn [ka_kind ka_salt_size] in E. apply random_value in E. apply hkdf_expand_salt. exact E.
Qed.
Lemma perform_fresh P a pass i r j : library_algo a -> perform_kdf P a (Some pass) i = (Val r, j) ->
  km_algo (kr_meta r) = a /\ km_info (kr_meta r) = None /\ (exists salt, km_salt (kr_meta r) = Some salt /\ fresh_salt P i (ka_id a) salt) /\
  perform_kdf_meta P (Some (kr_meta r)) (Some pass) = Val r.
Proof.
  intros L E. unfold perform_kdf in E. apply mbind_Val in E. destruct E as (salt & k & S & E). apply mres_Val in E. destruct E as (E & _).
  apply salt_fresh in S; [|exact L]. pose proof E as E'. apply perform_meta in E'; [|exact L]. destruct E' as (M & _). rewrite M. cbn [km_algo km_info km_salt].
  split; [reflexivity|]. split; [reflexivity|]. split; [exists salt; split; [reflexivity|exact S]|exact E].
Qed.
(* the same hash again, and only then *)
Lemma kdf_deterministic P m pass r1 r2 : perform_kdf_meta P (Some m) (Some pass) = Val r1 -> perform_kdf_meta P (Some m) (Some pass) = Val r2 -> r1 = r2.
Proof. intros E1 E2. rewrite E1 in E2. injection E2 as ->. reflexivity. Qed.

(* texts of fingerprints *)
Lemma put_inside m k v : (k < length m)%nat -> put m k v = Val (firstn k m ++ v :: skipn (S k) m)%list.
Proof. intros H. unfold put. rewrite (proj2 (Nat.ltb_lt _ _) H). reflexivity. Qed.
Lemma short_text t n : n = blen t / 2 -> (0 < length t)%nat ->
  exists m, put t (N.to_nat n) NUL = Val m /\ cb_data {| cb_mem := m; cb_len := n |} = firstn (length t / 2) t /\
    nth_error m (length t / 2) = Some x00 /\ length m = length t.
Proof.
  intros -> H. assert (E : N.to_nat (blen t / 2) = (length t / 2)%nat).
  { unfold blen. change 2 with (N.of_nat 2). rewrite <- Nat2N.inj_div, Nat2N.id. reflexivity. }
  rewrite E. assert (L : (length t / 2 < length t)%nat) by (apply Nat.div_lt; lia). rewrite put_inside by exact L. eexists. split; [reflexivity|].
  set (k := (length t / 2)%nat) in *. assert (LF : length (firstn k t) = k) by (rewrite firstn_length; lia).
  unfold cb_data. cbn [cb_mem cb_len]. rewrite E. fold k. split; [|split].
  - rewrite firstn_app, LF, Nat.sub_diag, firstn_O, app_nil_r. apply firstn_all2. lia.
  - rewrite nth_error_app2, LF, Nat.sub_diag by lia. reflexivity.
  - rewrite app_length, LF. cbn [length]. rewrite skipn_length. lia.
Qed.
Lemma b32_texts f : length (fp_data f) = 64%nat ->
  exists l s, fingerprint_get_b32 (Some f) FP_LONG = Val l /\ cb_data l = spec_base32 (fp_data f) /\ cb_len l = 103 /\
    fingerprint_get_b32 (Some f) FP_SHORT = Val s /\ cb_data s = firstn 51 (spec_base32 (fp_data f)) /\ cb_len s = 51 /\ nth_error (cb_mem s) 51 = Some x00.
Proof.
  intros L. assert (B : blen (fp_data f) = 64) by (unfold blen; rewrite L; reflexivity).
  assert (B1 : 0 < blen (fp_data f)) by lia. assert (B2 : blen (fp_data f) < 2 ^ 61 - 1) by (rewrite B; reflexivity).
  destruct (base32_encode_prop (fp_data f) B1 B2) as (H & _). rewrite B in H.
  assert (WL : within_limit ((8 * 64 + 4) / 5)) by (unfold within_limit, library_limit; change ((8 * 64 + 4) / 5) with 103; lia).
  specialize (H WL). destruct H as (t & E & T & LT & _). change ((8 * 64 + 4) / 5) with 103 in LT.
  assert (LT' : length t = 103%nat) by (unfold blen in LT; lia).
  unfold fingerprint_get_b32. rewrite E. cbn [rbind].
  destruct (short_text t (blen t / 2) eq_refl ltac:(lia)) as (m & P & D & Z & _). rewrite P. cbn [rbind].
  rewrite LT' in D, Z. change (103 / 2)%nat with 51%nat in D, Z.
  eexists _, _. split; [reflexivity|]. split; [|split; [|split; [reflexivity|split; [|split]]]].
  - unfold cb_data, cbuf_of. cbn [cb_mem cb_len]. unfold blen. rewrite Nat2N.id, firstn_all. exact T.
  - exact LT.
  - rewrite D, T. reflexivity.
  - cbn [cb_len]. rewrite LT. reflexivity.
  - exact Z.
Qed.
Lemma spec_hex_length d : blen (spec_hex d) = 2 * blen d.
Proof.
  rewrite <- hex_chars_spec. induction d as [|c d IH]; [reflexivity|]. cbn [hex_chars]. rewrite !blen_cons, IH. lia.
Qed.
Lemma hex_texts junk f : length (fp_data f) = 64%nat ->
  exists l s, fingerprint_get_hex junk (Some f) FP_LONG = Val l /\ cb_data l = spec_hex (fp_data f) /\ cb_len l = 128 /\
    fingerprint_get_hex junk (Some f) FP_SHORT = Val s /\ cb_data s = firstn 64 (spec_hex (fp_data f)) /\ cb_len s = 64 /\ nth_error (cb_mem s) 64 = Some x00.
Proof.
  intros L. assert (B : blen (fp_data f) = 64) by (unfold blen; rewrite L; reflexivity).
  assert (B2 : blen (fp_data f) < 2 ^ 63) by (rewrite B; reflexivity).
  destruct (hex_encode_prop junk (fp_data f) B2) as (H & _). rewrite B in H.
  assert (WL : within_limit (2 * 64 + 1)) by (unfold within_limit, library_limit; lia).
  specialize (H WL). destruct H as (t & E & T & LT). pose proof (spec_hex_length (fp_data f)) as LS. rewrite B in LS. change (2 * 64) with 128 in LS.
  rewrite LS in LT. assert (LS' : length (spec_hex (fp_data f)) = 128%nat) by (unfold blen in LS; lia).
  unfold fingerprint_get_hex. rewrite E. cbn [rbind]. destruct t as [tm tl]. cbn [cb_mem cb_len] in *. subst tm tl.
  assert (P := put_inside (spec_hex (fp_data f) ++ [x00])%list (N.to_nat (128 / 2)) NUL).
  change (N.to_nat (128 / 2)) with 64%nat in *. rewrite P by (rewrite app_length; lia). cbn [rbind].
  eexists _, _. split; [reflexivity|]. split; [|split; [reflexivity|split; [reflexivity|split; [|split; [reflexivity|]]]]].
  - unfold cb_data. cbn [cb_mem cb_len]. change (N.to_nat 128) with 128%nat. rewrite <- LS'. rewrite firstn_app, Nat.sub_diag, firstn_all, firstn_O, app_nil_r. reflexivity.
  - unfold cb_data. cbn [cb_mem cb_len]. change (N.to_nat (128 / 2)) with 64%nat.
    assert (LF : length (firstn 64 (spec_hex (fp_data f) ++ [x00])) = 64%nat) by (rewrite firstn_length, app_length; lia).
    rewrite firstn_app, LF. change (64 - 64)%nat with 0%nat. rewrite firstn_O, app_nil_r, firstn_firstn. change (Nat.min 64 64) with 64%nat.
    rewrite firstn_app. replace (64 - length (spec_hex (fp_data f)))%nat with 0%nat by lia. rewrite firstn_O, app_nil_r. reflexivity.
  - assert (LF : length (firstn 64 (spec_hex (fp_data f) ++ [x00])) = 64%nat) by (rewrite firstn_length, app_length; lia).
    cbn [cb_mem]. rewrite nth_error_app2 by lia. rewrite LF. reflexivity.
Qed.

(* rotation *)
Lemma rotate_ok n k c : made_keypair k -> node_rotate_keypair n (Some k) c =
  (true, {| nd_dev_id := nd_dev_id n; nd_chain := nd_chain n; nd_keypair := Some k; nd_status := S_UNKNOWN; nd_cache := nd_cache n |}).
Proof. intros M. unfold node_rotate_keypair. destruct c; [|reflexivity]. rewrite (keypair_made k M). reflexivity. Qed.
(* import of keys *)
Lemma import_private P b k : ec_key_import P (Some b) true = Some k ->
  exists pub der, p_d2i P b = Some (pub, der) /\ p_inf P pub = false /\ ek_pub k = x00 :: pub /\ ek_pri k = Some der.
Proof.
  unfold ec_key_import. destruct (p_d2i P b) as [[pub der]|] eqn:D; [|discriminate]. destruct (p_inf P pub) eqn:I; [discriminate|].
  unfold ec_pub_key_to_buffer, ec_pri_key_to_buffer, buffer_create. destruct (size_ok _); [|discriminate]. destruct (size_ok _); [|discriminate].
  cbn [ec_key_create]. intros E. apply Some_inj in E. subst k. exists pub, der. auto.
Qed.
Lemma import_public P b k : ec_key_import P (Some b) false = Some k ->
  exists rest pub, b = x00 :: rest /\ p_o2i P rest = Some pub /\ p_inf P pub = false /\ ek_pub k = x00 :: pub /\ ek_pri k = None.
Proof.
  unfold ec_key_import, evp_public_key_from_buffer. destruct b as [|c [|d rest]]; try discriminate. unfold curve_find.
  destruct (N.eqb_spec (b2n c) 0) as [Z|]; [|discriminate]. destruct (p_o2i P (d :: rest)) as [pub|] eqn:O; [|discriminate].
  destruct (p_inf P pub) eqn:I; [discriminate|]. unfold ec_pub_key_to_buffer, buffer_create. destruct (size_ok _); [|discriminate].
  cbn [ec_key_create]. intros E. apply Some_inj in E. subst k. exists (d :: rest), pub. repeat split; auto.
  f_equal. apply b2n_inj. exact Z.
Qed.
Lemma import_own P k i j : ec_ok P -> gen_ok P -> ec_rand_key P P521 i = (Val k, j) ->
  (forall pri, ek_pri k = Some pri -> ec_key_import P (Some pri) true = Some k) /\
  ec_key_import P (Some (ek_pub k)) false = Some {| ek_curve := P521; ek_pub := ek_pub k; ek_pri := None |}.
Proof.
  intros EO GO E. pose proof (made_random P k i j E) as M. split.
  - intros pri Q. destruct (IdentityFacts.engine_key_importable_private P k EO GO M) as (d & D & I); [congruence|].
    assert (d = pri) by congruence. subst d. exact I.
  - pose proof (IdentityFacts.engine_key_importable P k EO GO M) as I. destruct (IdentityFacts.engine_key_form P k EO GO M) as (pub & _ & C & _).
    unfold importable, public_key in I. rewrite C in I. exact I.
Qed.
