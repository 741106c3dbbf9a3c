(* C67-C72: raw signatures, MACs, key derivation, fingerprint texts, rotation, import of keys *)
From Coq Require Import Strings.String.
From Verif.Base Require Import Bytes Monad.
From Verif.Model Require Import Buffer CString Hex Base32 Cipher Ecdsa Kdf Prims Engine Fingerprint Identity Node RawSig.
From Verif.Spec Require Import BufferSpec TextSpec CodecSpec CopySpec HashSpec RawSigSpec.
From Verif.Proofs Require Import BytesFacts CodecFacts ToyPrims ToyObjects HashFacts RawSigFacts CopyFacts.
Local Open Scope N_scope.

(* --- C67: a raw signature converted to DER and back is the same 132 bytes *)
Theorem C67_raw_roundtrip : forall D v c d raw, der_ok D -> length raw = 132%nat ->
  handles v (number (firstn 66 raw)) (number (skipn 66 raw)) ->
  exists x, ecdsa_from_raw D c d (Some raw) = Val x /\ es_curve x = c /\ es_digest x = d /\
    d_d2i D (es_sig x) = Some (number (firstn 66 raw), number (skipn 66 raw)) /\ ecdsa_to_raw D v (Some x) = Val raw.
Proof. exact (fun D v c d raw HD L HV => from_to D v c d raw _ _ HD (raw_always raw L) HV). Qed.
Print Assumptions C67_raw_roundtrip.
(* and a signature whose numbers have at most 528 bits has a raw form that gives it back *)
Theorem C67_der_roundtrip_partial : forall D v x r s, der_ok D -> d_d2i D (es_sig x) = Some (r, s) -> fits_raw r s -> handles v r s ->
  exists raw, ecdsa_to_raw D v (Some x) = Val raw /\ raw_form raw r s /\
    exists y, ecdsa_from_raw D (es_curve x) (es_digest x) (Some raw) = Val y /\ es_curve y = es_curve x /\ es_digest y = es_digest x /\
      d_d2i D (es_sig y) = Some (r, s) /\ (es_sig x = d_i2d D r s -> y = x).
Proof. exact to_from. Qed.
Print Assumptions C67_der_roundtrip_partial.
Theorem C67_from_raw_safe : forall D c d, der_ok D ->
  (forall b, ecdsa_from_raw D c d b <> UB) /\ ecdsa_from_raw D c d None = Null /\
  forall b, length b <> 132%nat -> ecdsa_from_raw D c d (Some b) = Null.
Proof. exact (fun D c d HD => conj (fun b => from_raw_total D c d b HD) (conj eq_refl (from_raw_refuses D c d))). Qed.
Print Assumptions C67_from_raw_safe.
(* with AWS-LC numbers that are too long are refused; the sign is not looked at *)
Theorem C67_aws_partial : forall D x raw, ecdsa_to_raw D AWS_LC (Some x) = Val raw ->
  exists r s, d_d2i D (es_sig x) = Some (r, s) /\ raw_form raw (Z.abs r) (Z.abs s).
Proof. exact to_raw_aws. Qed.
Print Assumptions C67_aws_partial.
(* with OpenSSL 1.1 and later a number that is too long is silently left out *)
Theorem C67_too_long_refuted : exists D x r s raw, der_ok D /\ d_d2i D (es_sig x) = Some (r, s) /\
  ecdsa_to_raw D OPENSSL_1_1 (Some x) = Val raw /\ ~ raw_form raw r s /\ raw_form raw 0 s.
Proof.
  exists toy_der, {| es_curve := P521; es_digest := SHA512; es_sig := toy_i2d (2 ^ 528) 5 |}, (2 ^ 528)%Z, 5%Z, (repeat x00 131 ++ [x05])%list.
  split; [exact toy_der_ok|]. split; [vm_compute; reflexivity|]. split; [vm_compute; reflexivity|].
  split; [intros (_ & H & _); vm_compute in H; discriminate H|]. split; [reflexivity|split; vm_compute; reflexivity].
Qed.
Print Assumptions C67_too_long_refuted.
(* before 1.1 it is written outside the buffer *)
Theorem C67_overflow_refuted : exists D x r s, der_ok D /\ d_d2i D (es_sig x) = Some (r, s) /\ ecdsa_to_raw D OPENSSL_1_0 (Some x) = UB.
Proof.
  exists toy_der, {| es_curve := P521; es_digest := SHA512; es_sig := toy_i2d (2 ^ 528) 5 |}, (2 ^ 528)%Z, 5%Z.
  split; [exact toy_der_ok|]. split; vm_compute; reflexivity.
Qed.
Print Assumptions C67_overflow_refuted.
(* and the number 0, which has a raw form, is refused *)
Theorem C67_zero_refuted : exists D x, der_ok D /\ d_d2i D (es_sig x) = Some (0, 5)%Z /\ fits_raw 0 5 /\ ecdsa_to_raw D OPENSSL_1_0 (Some x) = Null.
Proof.
  exists toy_der, {| es_curve := P521; es_digest := SHA512; es_sig := toy_i2d 0 5 |}.
  split; [exact toy_der_ok|]. split; [vm_compute; reflexivity|]. split; [unfold fits_raw; vm_compute; repeat split; congruence|vm_compute; reflexivity].
Qed.
Print Assumptions C67_zero_refuted.
(* a signature with negative numbers and one with their magnitudes have the same raw form *)
Theorem C67_sign_refuted : forall v, exists D x y raw, der_ok D /\ d_d2i D (es_sig x) = Some (-5, 7)%Z /\ d_d2i D (es_sig y) = Some (5, 7)%Z /\
  ecdsa_to_raw D v (Some x) = Val raw /\ ecdsa_to_raw D v (Some y) = Val raw.
Proof.
  intros v. exists toy_der, {| es_curve := P521; es_digest := SHA512; es_sig := [x30; x06; x02; x01; xfb; x02; x01; x07] |},
    {| es_curve := P521; es_digest := SHA512; es_sig := [x30; x06; x02; x01; x05; x02; x01; x07] |}, (repeat x00 65 ++ [x05] ++ repeat x00 65 ++ [x07])%list.
  split; [exact toy_der_ok|]. destruct v; repeat split; vm_compute; reflexivity.
Qed.
Print Assumptions C67_sign_refuted.
Example C67_case : let x := {| es_curve := P521; es_digest := SHA256; es_sig := toy_i2d (2 ^ 521 - 3) 129 |} in
  der_ok toy_der /\ d_d2i toy_der (es_sig x) = Some ((2 ^ 521 - 3)%Z, 129%Z) /\ fits_raw (2 ^ 521 - 3) 129 /\ (forall v, handles v (2 ^ 521 - 3) 129) /\
  length (es_sig x) = 74%nat.
Proof.
  split; [exact toy_der_ok|]. split; [vm_compute; reflexivity|]. split; [repeat split; vm_compute; congruence|].
  split; [intros v _; split; reflexivity|vm_compute; reflexivity].
Qed.

(* --- C68: a MAC is accepted exactly when it is the MAC of the data under the key *)
Theorem C68_mac_exact : forall P d key data mac, hmac_ok P ->
  (hmac_verify P (Some data) (Some key) d (Some mac) = true <-> mac = p_hmac P d key data).
Proof. exact (fun P d key data mac => hmac_verified P d key data mac). Qed.
Print Assumptions C68_mac_exact.
Theorem C68_mac_created : forall P d key data, hmac_ok P -> hmac_create P (Some data) (Some key) d = Some (p_hmac P d key data).
Proof. exact (fun P d key data => hmac_created P d key data). Qed.
Print Assumptions C68_mac_created.
Theorem C68_mac_null : forall P d mac, (forall key, hmac_verify P None key d mac = false) /\ (forall data, hmac_verify P data None d mac = false) /\
  (forall data key, hmac_verify P data key d None = false).
Proof. exact hmac_null. Qed.
Print Assumptions C68_mac_null.
Example C68_case : hmac_ok toy /\ exists mac, hmac_create toy (Some [x01; x02]) (Some [x03]) SHA384 = Some mac /\
  hmac_verify toy (Some [x01; x02]) (Some [x03]) SHA384 (Some mac) = true /\ hmac_verify toy (Some [x01; x03]) (Some [x03]) SHA384 (Some mac) = false.
Proof. split; [exact toy_hmac|]. eexists. split; [vm_compute; reflexivity|]. split; vm_compute; reflexivity. Qed.

(* --- C69: a derived hash is that of the advertised algorithm, cost, salt and info, and can be derived again *)
Theorem C69_advertised : forall P m pass r, library_algo (km_algo m) -> perform_kdf_meta P (Some m) (Some pass) = Val r ->
  kr_meta r = m /\ hash_of P pass (ka_id (km_algo m)) (km_salt m) (km_info m) (ka_output_size (km_algo m)) (kr_hash r).
Proof. exact perform_meta. Qed.
Print Assumptions C69_advertised.
Theorem C69_fresh : forall P a pass i r j, library_algo a -> perform_kdf P a (Some pass) i = (Val r, j) ->
  km_algo (kr_meta r) = a /\ km_info (kr_meta r) = None /\ (exists salt, km_salt (kr_meta r) = Some salt /\ fresh_salt P i (ka_id a) salt) /\
  perform_kdf_meta P (Some (kr_meta r)) (Some pass) = Val r.
Proof. exact perform_fresh. Qed.
Print Assumptions C69_fresh.
Example C69_case : Forall (fun a => library_algo a /\ exists r, perform_kdf toy a (Some [x70; x77]) 3%nat = (Val r, 4%nat) /\ kr_hash r <> [])
  [KDF_SCRYPT_2_17; KDF_SCRYPT_2_20; KDF_BCRYPT_15; KDF_HKDF_SHA256; KDF_HKDF_SHA384; KDF_HKDF_SHA512].
Proof.
  repeat (apply Forall_cons; [split; [left; cbn [In]; tauto|eexists; split; [vm_compute; reflexivity|discriminate]]|]). apply Forall_nil.
Qed.

(* --- C70: the texts of a fingerprint *)
Theorem C70_base32_texts : forall f, length (fp_data f) = 64%nat ->
  exists l s, fingerprint_get_b32 (Some f) FP_LONG = Val l /\ cb_data l = spec_base32 (fp_data f) /\ cb_len l = 103 /\
    fingerprint_get_b32 (Some f) FP_SHORT = Val s /\ cb_data s = firstn 51 (spec_base32 (fp_data f)) /\ cb_len s = 51 /\ nth_error (cb_mem s) 51 = Some x00.
Proof. exact b32_texts. Qed.
Print Assumptions C70_base32_texts.
Theorem C70_hex_texts : forall junk f, length (fp_data f) = 64%nat ->
  exists l s, fingerprint_get_hex junk (Some f) FP_LONG = Val l /\ cb_data l = spec_hex (fp_data f) /\ cb_len l = 128 /\
    fingerprint_get_hex junk (Some f) FP_SHORT = Val s /\ cb_data s = firstn 64 (spec_hex (fp_data f)) /\ cb_len s = 64 /\ nth_error (cb_mem s) 64 = Some x00.
Proof. exact hex_texts. Qed.
Print Assumptions C70_hex_texts.
Example C70_case : exists f, fingerprint_gen toy (Some (toy_key 1)) (Some [x61]) FP_SHA512 = Val f /\ length (fp_data f) = 64%nat.
Proof. eexists. split; vm_compute; reflexivity. Qed.

(* --- C71: rotation replaces the key pair and nothing else, and asks for a new verification;
   the public half of a key pair has no private key *)
Theorem C71_rotation : forall n k copy, made_keypair k ->
  node_rotate_keypair n (Some k) copy =
    (true, {| nd_dev_id := nd_dev_id n; nd_chain := nd_chain n; nd_keypair := Some k; nd_status := S_UNKNOWN; nd_cache := nd_cache n |}).
Proof. exact rotate_ok. Qed.
Print Assumptions C71_rotation.
Theorem C71_rotation_null : forall n copy, node_rotate_keypair n None copy = (false, n).
Proof. exact (fun n copy => eq_refl). Qed.
Print Assumptions C71_rotation_null.
Theorem C71_make_public : forall k, ek_pri (kp_key (keypair_make_public k)) = None /\ ek_pub (kp_key (keypair_make_public k)) = ek_pub (kp_key k) /\
  ek_curve (kp_key (keypair_make_public k)) = ek_curve (kp_key k) /\ kp_identifier (keypair_make_public k) = kp_identifier k /\
  kp_signature (keypair_make_public k) = kp_signature k.
Proof. exact (fun k => conj eq_refl (conj eq_refl (conj eq_refl (conj eq_refl eq_refl)))). Qed.
Print Assumptions C71_make_public.
Definition another_pair : keypair := Eval vm_compute in toy_keypair 1 9.
Example C71_case : made_keypair another_pair /\ option_map kp_identifier (nd_keypair (toy_node 1)) = Some 7 /\ kp_identifier another_pair = 9.
Proof.
  split; [|split; vm_compute; reflexivity]. split; [split|].
  - vm_compute. split; [reflexivity|congruence].
  - intros x E. apply Some_inj in E. subst x. vm_compute. split; [reflexivity|congruence].
  - intros x E. apply Some_inj in E. subst x. vm_compute. split; [reflexivity|congruence].
Qed.

(* --- C72: importing a key gives the key OpenSSL read, never the point at infinity, and generated
   keys are read back *)
Theorem C72_private : forall P b k, ec_key_import P (Some b) true = Some k ->
  exists pub der, p_d2i P b = Some (pub, der) /\ p_inf P pub = false /\ ek_pub k = x00 :: pub /\ ek_pri k = Some der.
Proof. exact import_private. Qed.
Print Assumptions C72_private.
Theorem C72_public : forall P b k, ec_key_import P (Some b) false = Some k ->
  exists rest pub, b = x00 :: rest /\ p_o2i P rest = Some pub /\ p_inf P pub = false /\ ek_pub k = x00 :: pub /\ ek_pri k = None.
Proof. exact import_public. Qed.
Print Assumptions C72_public.
Theorem C72_generated : forall P k i j, ec_ok P -> gen_ok P -> ec_rand_key P P521 i = (Val k, j) ->
  (forall pri, ek_pri k = Some pri -> ec_key_import P (Some pri) true = Some k) /\
  ec_key_import P (Some (ek_pub k)) false = Some {| ek_curve := P521; ek_pub := ek_pub k; ek_pri := None |}.
Proof. exact import_own. Qed.
Print Assumptions C72_generated.
Example C72_case : ec_ok toy /\ gen_ok toy /\ exists k, ec_rand_key toy P521 5%nat = (Val k, 6%nat) /\ ek_pri k <> None.
Proof. split; [exact toy_ec|]. split; [exact toy_gen|]. eexists. split; [vm_compute; reflexivity|discriminate]. Qed.
