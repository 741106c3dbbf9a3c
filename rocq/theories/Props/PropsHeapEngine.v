(* C80-C82: cryptographic operations, as operations on memory *)
From Verif.Base Require Import Bytes Monad.
From Verif.Model Require Import Buffer Cipher Ecdsa Kdf Prims Engine Heap HeapObjects HeapEngine.
From Verif.Spec Require Import HeapSpec HeapObjectSpec CopySpec HeapEngineSpec.
From Verif.Proofs Require Import HeapFacts HeapObjectFacts HeapEngineFacts HeapKdfFacts HeapEngineExamples ToyPrims.
Local Open Scope N_scope.

(* --- random *)
Theorem C80_random
  (P : prims) (R1 : rand_ok P) len s :
  performs_cleanly buf_cells b_bytes []
    (fst (crypto_random P len s))
    []
    (h_crypto_random P len s).
Proof. exact (op_clean _ _ _ _ _ _ _ _ _ (op_sound _ _ _ _ _ _ _ _ _ (crypto_random_rule P R1 len s)) (fun X => X)). Qed.
Print Assumptions C80_random.

Example C80_random_case : performed [] (h_crypto_random toy 32 0).
Proof. by_running. Qed.

Theorem C81_random_partial
  (P : prims) (R1 : rand_ok P) len s :
  performs_in_memory buf_cells b_bytes []
    (fst (crypto_random P len s))
    []
    []
    buffer_kinds
    never_leaks_op
    (h_crypto_random P len s).
Proof. exact (op_sound _ _ _ _ _ _ _ _ _ (crypto_random_rule P R1 len s)). Qed.
Print Assumptions C81_random_partial.

Theorem C82_random
  (P : prims) (R1 : rand_ok P) len s :
  hides_op []
    ([] ++ [])
    (h_crypto_random P len s).
Proof. exact (op_hides _ _ _ _ _ _ _ _ _ (crypto_random_rule P R1 len s)). Qed.
Print Assumptions C82_random.

(* --- random_key *)
Theorem C80_random_key
  (P : prims) (R1 : rand_ok P) c s :
  performs_cleanly ck_cells ck_value []
    (fst (cipher_key_random P c s))
    []
    (h_cipher_key_random P c s).
Proof. exact (op_clean _ _ _ _ _ _ _ _ _ (op_sound _ _ _ _ _ _ _ _ _ (cipher_key_random_rule P R1 c s)) (fun X => X)). Qed.
Print Assumptions C80_random_key.

Example C80_random_key_case : performed [] (h_cipher_key_random toy AES256_GCM 0).
Proof. by_running. Qed.

Theorem C81_random_key_partial
  (P : prims) (R1 : rand_ok P) c s :
  performs_in_memory ck_cells ck_value []
    (fst (cipher_key_random P c s))
    []
    []
    [T_buffer; T_data; T_cipher_key]
    never_leaks_op
    (h_cipher_key_random P c s).
Proof. exact (op_sound _ _ _ _ _ _ _ _ _ (cipher_key_random_rule P R1 c s)). Qed.
Print Assumptions C81_random_key_partial.

Theorem C82_random_key
  (P : prims) (R1 : rand_ok P) c s :
  hides_op []
    ([] ++ [])
    (h_cipher_key_random P c s).
Proof. exact (op_hides _ _ _ _ _ _ _ _ _ (cipher_key_random_rule P R1 c s)). Qed.
Print Assumptions C82_random_key.

(* --- encrypt *)
Theorem C80_encrypt_partial
  (P : prims) (R1 : rand_ok P) (R2 : aead_ok P) (R3 : ctr_ok P) text aad k iv s (C : forall x v, k = Some x -> iv = Some v -> blen (b_bytes v) <= iv_len (hck_cipher x)) :
  performs_cleanly cr_cells cr_value [oc buf_cells text; oc buf_cells aad; oc ck_cells k; oc buf_cells iv]
    (fst (aes256_encrypt P (option_map b_bytes text) (option_map b_bytes aad) (option_map ck_value k) (option_map b_bytes iv) s))
    (match k with Some x => encrypt_public P (hck_cipher x) iv s | None => [] end)
    (h_aes256_encrypt P text aad k iv s).
Proof. exact (op_clean _ _ _ _ _ _ _ _ _ (op_sound _ _ _ _ _ _ _ _ _ (aes256_encrypt_rule P R1 R2 R3 text aad k iv s)) (encrypt_fits k iv C)). Qed.
Print Assumptions C80_encrypt_partial.

Example C80_encrypt_case : performed [buf_cells text0; buf_cells aad0; ck_cells key0; buf_cells iv0] (h_aes256_encrypt toy (Some text0) (Some aad0) (Some key0) (Some iv0) 0).
Proof. by_running. Qed.

Theorem C81_encrypt_partial
  (P : prims) (R1 : rand_ok P) (R2 : aead_ok P) (R3 : ctr_ok P) text aad k iv s :
  performs_in_memory cr_cells cr_value [oc buf_cells text; oc buf_cells aad; oc ck_cells k; oc buf_cells iv]
    (fst (aes256_encrypt P (option_map b_bytes text) (option_map b_bytes aad) (option_map ck_value k) (option_map b_bytes iv) s))
    (match k with Some x => encrypt_public P (hck_cipher x) iv s | None => [] end)
    []
    (encrypt_untested iv)
    (match k with Some x => iv_too_long (hck_cipher x) iv | None => never_leaks_op end)
    (h_aes256_encrypt P text aad k iv s).
Proof. exact (op_sound _ _ _ _ _ _ _ _ _ (aes256_encrypt_rule P R1 R2 R3 text aad k iv s)). Qed.
Print Assumptions C81_encrypt_partial.

Theorem C82_encrypt
  (P : prims) (R1 : rand_ok P) (R2 : aead_ok P) (R3 : ctr_ok P) text aad k iv s :
  hides_op [oc buf_cells text; oc buf_cells aad; oc ck_cells k; oc buf_cells iv]
    ((match k with Some x => encrypt_public P (hck_cipher x) iv s | None => [] end) ++ [])
    (h_aes256_encrypt P text aad k iv s).
Proof. exact (op_hides _ _ _ _ _ _ _ _ _ (aes256_encrypt_rule P R1 R2 R3 text aad k iv s)). Qed.
Print Assumptions C82_encrypt.

(* --- decrypt *)
Theorem C80_decrypt
  (P : prims) (R1 : aead_len_ok P) (R2 : ctr_ok P) r aad k only_authenticated draft :
  performs_cleanly buf_cells b_bytes [oc cr_cells r; oc buf_cells aad; oc ck_cells k]
    (aes256_decrypt P (option_map cr_value r) (option_map b_bytes aad) (option_map ck_value k) only_authenticated)
    []
    (h_aes256_decrypt P r aad k only_authenticated draft).
Proof. exact (op_clean _ _ _ _ _ _ _ _ _ (op_sound _ _ _ _ _ _ _ _ _ (aes256_decrypt_rule P R1 R2 r aad k only_authenticated draft)) (fun X => X)). Qed.
Print Assumptions C80_decrypt.

Example C80_decrypt_case : performed [cr_cells sealed0; buf_cells aad0; ck_cells key0] (h_aes256_decrypt toy (Some sealed0) (Some aad0) (Some key0) true []).
Proof. by_running. Qed.

Theorem C81_decrypt
  (P : prims) (R1 : aead_len_ok P) (R2 : ctr_ok P) r aad k only_authenticated draft :
  performs_safely buf_cells b_bytes [oc cr_cells r; oc buf_cells aad; oc ck_cells k]
    (aes256_decrypt P (option_map cr_value r) (option_map b_bytes aad) (option_map ck_value k) only_authenticated)
    [] (h_aes256_decrypt P r aad k only_authenticated draft).
Proof. exact (op_strict _ _ _ _ _ _ (op_sound _ _ _ _ _ _ _ _ _ (aes256_decrypt_rule P R1 R2 r aad k only_authenticated draft))). Qed.
Print Assumptions C81_decrypt.

Theorem C82_decrypt
  (P : prims) (R1 : aead_len_ok P) (R2 : ctr_ok P) r aad k only_authenticated draft :
  hides_op [oc cr_cells r; oc buf_cells aad; oc ck_cells k]
    ([] ++ [])
    (h_aes256_decrypt P r aad k only_authenticated draft).
Proof. exact (op_hides _ _ _ _ _ _ _ _ _ (aes256_decrypt_rule P R1 R2 r aad k only_authenticated draft)). Qed.
Print Assumptions C82_decrypt.

(* --- hash *)
Theorem C80_hash
  (P : prims) (R1 : sha_ok P) b salt d :
  performs_cleanly buf_cells b_bytes [oc buf_cells b; oc buf_cells salt]
    (lift (sha2 P (option_map b_bytes b) (option_map b_bytes salt) d))
    []
    (h_sha2 P b salt d).
Proof. exact (op_clean _ _ _ _ _ _ _ _ _ (op_sound _ _ _ _ _ _ _ _ _ (sha2_rule P R1 b salt d)) (fun X => X)). Qed.
Print Assumptions C80_hash.

Example C80_hash_case : performed [buf_cells text0; buf_cells aad0] (h_sha2 toy (Some text0) (Some aad0) SHA256).
Proof. by_running. Qed.

Theorem C81_hash_partial
  (P : prims) (R1 : sha_ok P) b salt d :
  performs_in_memory buf_cells b_bytes [oc buf_cells b; oc buf_cells salt]
    (lift (sha2 P (option_map b_bytes b) (option_map b_bytes salt) d))
    []
    []
    buffer_kinds
    never_leaks_op
    (h_sha2 P b salt d).
Proof. exact (op_sound _ _ _ _ _ _ _ _ _ (sha2_rule P R1 b salt d)). Qed.
Print Assumptions C81_hash_partial.

Theorem C82_hash
  (P : prims) (R1 : sha_ok P) b salt d :
  hides_op [oc buf_cells b; oc buf_cells salt]
    ([] ++ [])
    (h_sha2 P b salt d).
Proof. exact (op_hides _ _ _ _ _ _ _ _ _ (sha2_rule P R1 b salt d)). Qed.
Print Assumptions C82_hash.

(* --- hmac *)
Theorem C80_hmac
  (P : prims) (R1 : hmac_ok P) b k d :
  performs_cleanly buf_cells b_bytes [oc buf_cells b; oc buf_cells k]
    (lift (hmac_create P (option_map b_bytes b) (option_map b_bytes k) d))
    []
    (h_hmac_create P b k d).
Proof. exact (op_clean _ _ _ _ _ _ _ _ _ (op_sound _ _ _ _ _ _ _ _ _ (hmac_create_rule P R1 b k d)) (fun X => X)). Qed.
Print Assumptions C80_hmac.

Example C80_hmac_case : performed [buf_cells text0; buf_cells aad0] (h_hmac_create toy (Some text0) (Some aad0) SHA256).
Proof. by_running. Qed.

Theorem C81_hmac
  (P : prims) (R1 : hmac_ok P) b k d :
  performs_safely buf_cells b_bytes [oc buf_cells b; oc buf_cells k]
    (lift (hmac_create P (option_map b_bytes b) (option_map b_bytes k) d))
    [] (h_hmac_create P b k d).
Proof. exact (op_strict _ _ _ _ _ _ (op_sound _ _ _ _ _ _ _ _ _ (hmac_create_rule P R1 b k d))). Qed.
Print Assumptions C81_hmac.

Theorem C82_hmac
  (P : prims) (R1 : hmac_ok P) b k d :
  hides_op [oc buf_cells b; oc buf_cells k]
    ([] ++ [])
    (h_hmac_create P b k d).
Proof. exact (op_hides _ _ _ _ _ _ _ _ _ (hmac_create_rule P R1 b k d)). Qed.
Print Assumptions C82_hmac.

(* --- hmac_verify *)
Theorem C80_hmac_verify_partial
  (P : prims) (R1 : hmac_ok P) b k d expected (C : expected <> None) :
  answers_cleanly [oc buf_cells b; oc buf_cells k; oc buf_cells expected]
    (hmac_verify P (option_map b_bytes b) (option_map b_bytes k) d (option_map b_bytes expected))
    (h_hmac_verify P b k d expected).
Proof. exact (answer_clean _ _ _ _ _ (hmac_verify_rule P R1 b k d expected) C). Qed.
Print Assumptions C80_hmac_verify_partial.

Example C80_hmac_verify_case : answered true [buf_cells text0; buf_cells aad0; buf_cells mac0] (h_hmac_verify toy (Some text0) (Some aad0) SHA256 (Some mac0)).
Proof. by_running. Qed.

Theorem C81_hmac_verify_partial
  (P : prims) (R1 : hmac_ok P) b k d expected (C : expected <> None) :
  answers_safely [oc buf_cells b; oc buf_cells k; oc buf_cells expected]
    (hmac_verify P (option_map b_bytes b) (option_map b_bytes k) d (option_map b_bytes expected))
    (h_hmac_verify P b k d expected).
Proof. exact (answer_strict _ _ _ _ (hmac_verify_rule P R1 b k d expected) C). Qed.
Print Assumptions C81_hmac_verify_partial.

Theorem C82_hmac_verify
  (P : prims) (R1 : hmac_ok P) b k d expected :
  hides_op [oc buf_cells b; oc buf_cells k; oc buf_cells expected] [] (h_hmac_verify P b k d expected).
Proof. exact (answer_hides _ _ _ _ _ (hmac_verify_rule P R1 b k d expected)). Qed.
Print Assumptions C82_hmac_verify.

(* --- hkdf *)
Theorem C80_hkdf
  (P : prims) (R1 : hkdf_ok P) ikm salt info d len expand :
  performs_cleanly buf_cells b_bytes [oc buf_cells ikm; oc buf_cells salt; oc buf_cells info]
    (lift (hkdf_internal P (option_map b_bytes ikm) (option_map b_bytes salt) (option_map b_bytes info) d len expand))
    []
    (h_hkdf_internal P ikm salt info d len expand).
Proof. exact (op_clean _ _ _ _ _ _ _ _ _ (op_sound _ _ _ _ _ _ _ _ _ (hkdf_internal_rule P R1 ikm salt info d len expand)) (fun X => X)). Qed.
Print Assumptions C80_hkdf.

Example C80_hkdf_case : performed [buf_cells text0; buf_cells aad0; buf_cells iv0] (h_hkdf_internal toy (Some text0) (Some aad0) (Some iv0) SHA512 32 false).
Proof. by_running. Qed.

Theorem C81_hkdf
  (P : prims) (R1 : hkdf_ok P) ikm salt info d len expand :
  performs_safely buf_cells b_bytes [oc buf_cells ikm; oc buf_cells salt; oc buf_cells info]
    (lift (hkdf_internal P (option_map b_bytes ikm) (option_map b_bytes salt) (option_map b_bytes info) d len expand))
    [] (h_hkdf_internal P ikm salt info d len expand).
Proof. exact (op_strict _ _ _ _ _ _ (op_sound _ _ _ _ _ _ _ _ _ (hkdf_internal_rule P R1 ikm salt info d len expand))). Qed.
Print Assumptions C81_hkdf.

Theorem C82_hkdf
  (P : prims) (R1 : hkdf_ok P) ikm salt info d len expand :
  hides_op [oc buf_cells ikm; oc buf_cells salt; oc buf_cells info]
    ([] ++ [])
    (h_hkdf_internal P ikm salt info d len expand).
Proof. exact (op_hides _ _ _ _ _ _ _ _ _ (hkdf_internal_rule P R1 ikm salt info d len expand)). Qed.
Print Assumptions C82_hkdf.

(* --- generate_key *)
Theorem C80_generate_key
  (P : prims) c s :
  performs_cleanly key_cells key_value []
    (fst (ec_rand_key P c s))
    []
    (h_ec_rand_key P c s).
Proof. exact (op_clean _ _ _ _ _ _ _ _ _ (op_sound _ _ _ _ _ _ _ _ _ (ec_rand_key_rule P c s)) (fun X => X)). Qed.
Print Assumptions C80_generate_key.

Example C80_generate_key_case : performed [] (h_ec_rand_key toy P521 0).
Proof. by_running. Qed.

Theorem C81_generate_key_partial
  (P : prims) c s :
  performs_in_memory key_cells key_value []
    (fst (ec_rand_key P c s))
    []
    []
    [T_openssl; T_ec_key]
    never_leaks_op
    (h_ec_rand_key P c s).
Proof. exact (op_sound _ _ _ _ _ _ _ _ _ (ec_rand_key_rule P c s)). Qed.
Print Assumptions C81_generate_key_partial.

Theorem C82_generate_key
  (P : prims) c s :
  hides_op []
    ([] ++ [])
    (h_ec_rand_key P c s).
Proof. exact (op_hides _ _ _ _ _ _ _ _ _ (ec_rand_key_rule P c s)). Qed.
Print Assumptions C82_generate_key.

(* --- sign *)
Theorem C80_sign_partial
  (P : prims) (R1 : sign_ok P) key b d s (C : forall k q, key = Some k -> hkey_pri k = Some q -> p_d2i P (b_bytes q) <> None) :
  performs_cleanly sig_cells sig_value [oc key_cells key; oc buf_cells b]
    (fst (ec_sign P (option_map key_value key) (option_map b_bytes b) d s))
    []
    (h_ec_sign P key b d s).
Proof. exact (op_clean _ _ _ _ _ _ _ _ _ (op_sound _ _ _ _ _ _ _ _ _ (ec_sign_rule P R1 key b d s)) (sign_fits P key C)). Qed.
Print Assumptions C80_sign_partial.

Example C80_sign_case : performed [key_cells pair0; buf_cells text0] (h_ec_sign toy (Some pair0) (Some text0) SHA256 0).
Proof. by_running. Qed.

Theorem C81_sign_partial
  (P : prims) (R1 : sign_ok P) key b d s :
  performs_in_memory sig_cells sig_value [oc key_cells key; oc buf_cells b]
    (fst (ec_sign P (option_map key_value key) (option_map b_bytes b) d s))
    []
    []
    [T_openssl; T_ecdsa_result]
    (sign_leak P key)
    (h_ec_sign P key b d s).
Proof. exact (op_sound _ _ _ _ _ _ _ _ _ (ec_sign_rule P R1 key b d s)). Qed.
Print Assumptions C81_sign_partial.

Theorem C82_sign
  (P : prims) (R1 : sign_ok P) key b d s :
  hides_op [oc key_cells key; oc buf_cells b]
    ([] ++ [])
    (h_ec_sign P key b d s).
Proof. exact (op_hides _ _ _ _ _ _ _ _ _ (ec_sign_rule P R1 key b d s)). Qed.
Print Assumptions C82_sign.

(* --- verify *)
Theorem C80_verify
  (P : prims) sg key b :
  answers_cleanly [oc sig_cells sg; oc key_cells key; oc buf_cells b]
    (ec_verify P (option_map sig_value sg) (option_map key_value key) (option_map b_bytes b))
    (h_ec_verify P sg key b).
Proof. exact (answer_clean _ _ _ _ _ (ec_verify_rule P sg key b) (fun X => X)). Qed.
Print Assumptions C80_verify.

Example C80_verify_case : answered true [sig_cells sig0; key_cells pair0; buf_cells text0] (h_ec_verify toy (Some sig0) (Some pair0) (Some text0)).
Proof. by_running. Qed.

Theorem C81_verify_partial
  (P : prims) sg key b :
  answers_in_memory [oc sig_cells sg; oc key_cells key; oc buf_cells b]
    (ec_verify P (option_map sig_value sg) (option_map key_value key) (option_map b_bytes b))
    [T_openssl] never_leaks_op (h_ec_verify P sg key b).
Proof. exact (answer_sound _ _ _ _ _ (ec_verify_rule P sg key b)). Qed.
Print Assumptions C81_verify_partial.

Theorem C82_verify
  (P : prims) sg key b :
  hides_op [oc sig_cells sg; oc key_cells key; oc buf_cells b] [] (h_ec_verify P sg key b).
Proof. exact (answer_hides _ _ _ _ _ (ec_verify_rule P sg key b)). Qed.
Print Assumptions C82_verify.

(* --- shared_secret *)
Theorem C80_shared_secret
  (P : prims) local peer :
  performs_cleanly buf_cells b_bytes [oc key_cells local; oc key_cells peer]
    (lift (gen_shared_secret P (option_map key_value local) (option_map key_value peer)))
    []
    (h_gen_shared_secret P local peer).
Proof. exact (op_clean _ _ _ _ _ _ _ _ _ (op_sound _ _ _ _ _ _ _ _ _ (gen_shared_secret_rule P local peer)) never_fails). Qed.
Print Assumptions C80_shared_secret.

Example C80_shared_secret_case : performed [key_cells pair0; key_cells pair1] (h_gen_shared_secret toy (Some pair0) (Some pair1)).
Proof. by_running. Qed.

Theorem C81_shared_secret_partial
  (P : prims) local peer :
  performs_in_memory buf_cells b_bytes [oc key_cells local; oc key_cells peer]
    (lift (gen_shared_secret P (option_map key_value local) (option_map key_value peer)))
    []
    []
    []
    some_failure
    (h_gen_shared_secret P local peer).
Proof. exact (op_sound _ _ _ _ _ _ _ _ _ (gen_shared_secret_rule P local peer)). Qed.
Print Assumptions C81_shared_secret_partial.

Theorem C82_shared_secret
  (P : prims) local peer :
  hides_op [oc key_cells local; oc key_cells peer]
    ([] ++ [])
    (h_gen_shared_secret P local peer).
Proof. exact (op_hides _ _ _ _ _ _ _ _ _ (gen_shared_secret_rule P local peer)). Qed.
Print Assumptions C82_shared_secret.

(* --- kdf *)
Theorem C80_kdf_partial
  (P : prims) (R1 : rand_ok P) (R2 : scrypt_ok P) (R3 : hkdf_ok P) a pass s (F : salt_fits a) (C : forall x, pass = Some x -> ~ empty_bcrypt a (b_bytes x)) :
  performs_cleanly kr_cells kr_value [oc buf_cells pass]
    (fst (perform_kdf P a (option_map b_bytes pass) s))
    (match pass with Some x => perform_kdf_public P a (b_bytes x) s | None => [] end)
    (h_perform_kdf P a pass s).
Proof. exact (op_clean _ _ _ _ _ _ _ _ _ (op_sound _ _ _ _ _ _ _ _ _ (perform_kdf_null_rule P R1 R2 R3 a pass s F)) (kdf_fits a pass C)). Qed.
Print Assumptions C80_kdf_partial.

Example C80_kdf_case : performed [buf_cells text0] (h_perform_kdf toy KDF_BCRYPT_15 (Some text0) 0).
Proof. by_running. Qed.

Theorem C81_kdf_partial
  (P : prims) (R1 : rand_ok P) (R2 : scrypt_ok P) (R3 : hkdf_ok P) a pass s (F : salt_fits a) :
  performs_in_memory kr_cells kr_value [oc buf_cells pass]
    (fst (perform_kdf P a (option_map b_bytes pass) s))
    (match pass with Some x => perform_kdf_public P a (b_bytes x) s | None => [] end)
    (match pass with Some x => derived_now P a (b_bytes x) s | None => [] end)
    buffer_kinds
    (match pass with Some x => kdf_leak a (b_bytes x) | None => never_leaks_op end)
    (h_perform_kdf P a pass s).
Proof. exact (op_sound _ _ _ _ _ _ _ _ _ (perform_kdf_null_rule P R1 R2 R3 a pass s F)). Qed.
Print Assumptions C81_kdf_partial.

Theorem C82_kdf_partial
  (P : prims) (R1 : rand_ok P) (R2 : scrypt_ok P) (R3 : hkdf_ok P) a pass s (F : salt_fits a) :
  hides_op [oc buf_cells pass]
    ((match pass with Some x => perform_kdf_public P a (b_bytes x) s | None => [] end) ++ (match pass with Some x => derived_now P a (b_bytes x) s | None => [] end))
    (h_perform_kdf P a pass s).
Proof. exact (op_hides _ _ _ _ _ _ _ _ _ (perform_kdf_null_rule P R1 R2 R3 a pass s F)). Qed.
Print Assumptions C82_kdf_partial.

(* --- kdf_meta *)
Theorem C80_kdf_meta_partial
  (P : prims) (R1 : scrypt_ok P) (R2 : hkdf_ok P) m pass (F : if_set made_kdf_meta (option_map km_value m)) (C : forall x y, m = Some x -> pass = Some y -> ~ empty_bcrypt (hkm_algo x) (b_bytes y)) :
  performs_cleanly kr_cells kr_value [oc km_cells m; oc buf_cells pass]
    (perform_kdf_meta P (option_map km_value m) (option_map b_bytes pass))
    (match m, pass with Some x, Some y => hash_public (hkm_algo x) (km_salt (km_value x)) (b_bytes y) | _, _ => [] end)
    (h_perform_kdf_meta P m pass).
Proof. exact (op_clean _ _ _ _ _ _ _ _ _ (op_sound _ _ _ _ _ _ _ _ _ (perform_kdf_meta_rule P R1 R2 m pass F)) (kdf_meta_fits m pass C)). Qed.
Print Assumptions C80_kdf_meta_partial.

Example C80_kdf_meta_case : performed [km_cells meta0; buf_cells text0] (h_perform_kdf_meta toy (Some meta0) (Some text0)).
Proof. by_running. Qed.

Theorem C81_kdf_meta_partial
  (P : prims) (R1 : scrypt_ok P) (R2 : hkdf_ok P) m pass (F : if_set made_kdf_meta (option_map km_value m)) :
  performs_in_memory kr_cells kr_value [oc km_cells m; oc buf_cells pass]
    (perform_kdf_meta P (option_map km_value m) (option_map b_bytes pass))
    (match m, pass with Some x, Some y => hash_public (hkm_algo x) (km_salt (km_value x)) (b_bytes y) | _, _ => [] end)
    (match m, pass with Some x, Some y => derived P (km_value x) (b_bytes y) ++ opt_list (km_salt (km_value x)) | _, _ => [] end)
    []
    (match m, pass with Some x, Some y => kdf_leak (hkm_algo x) (b_bytes y) | _, _ => never_leaks_op end)
    (h_perform_kdf_meta P m pass).
Proof. exact (op_sound _ _ _ _ _ _ _ _ _ (perform_kdf_meta_rule P R1 R2 m pass F)). Qed.
Print Assumptions C81_kdf_meta_partial.

Theorem C82_kdf_meta_partial
  (P : prims) (R1 : scrypt_ok P) (R2 : hkdf_ok P) m pass (F : if_set made_kdf_meta (option_map km_value m)) :
  hides_op [oc km_cells m; oc buf_cells pass]
    ((match m, pass with Some x, Some y => hash_public (hkm_algo x) (km_salt (km_value x)) (b_bytes y) | _, _ => [] end) ++ (match m, pass with Some x, Some y => derived P (km_value x) (b_bytes y) ++ opt_list (km_salt (km_value x)) | _, _ => [] end))
    (h_perform_kdf_meta P m pass).
Proof. exact (op_hides _ _ _ _ _ _ _ _ _ (perform_kdf_meta_rule P R1 R2 m pass F)). Qed.
Print Assumptions C82_kdf_meta_partial.

(* --- kdf_cipher *)
Theorem C80_kdf_cipher
  (P : prims) (R1 : rand_ok P) (R2 : aead_ok P) (R3 : ctr_ok P) (R4 : scrypt_ok P) (R5 : hkdf_ok P) a c v pass s :
  performs_cleanly buf_cells b_bytes [oc buf_cells v; oc buf_cells pass]
    (fst (kdf_cipher P a c (option_map b_bytes v) (option_map b_bytes pass) s))
    (match v, pass with Some x, Some y => kdf_cipher_public P a c (b_bytes x) (b_bytes y) s | _, _ => [] end)
    (h_kdf_cipher P a c v pass s).
Proof. exact (op_clean _ _ _ _ _ _ _ _ _ (op_sound _ _ _ _ _ _ _ _ _ (kdf_cipher_null_rule P R1 R2 R3 R4 R5 a c v pass s)) never_fails). Qed.
Print Assumptions C80_kdf_cipher.

Example C80_kdf_cipher_case : performed [buf_cells text0; buf_cells aad0] (h_kdf_cipher toy KDF_SCRYPT_2_17 AES256_GCM (Some text0) (Some aad0) 0).
Proof. by_running. Qed.

Theorem C81_kdf_cipher_partial
  (P : prims) (R1 : rand_ok P) (R2 : aead_ok P) (R3 : ctr_ok P) (R4 : scrypt_ok P) (R5 : hkdf_ok P) a c v pass s :
  performs_in_memory buf_cells b_bytes [oc buf_cells v; oc buf_cells pass]
    (fst (kdf_cipher P a c (option_map b_bytes v) (option_map b_bytes pass) s))
    (match v, pass with Some x, Some y => kdf_cipher_public P a c (b_bytes x) (b_bytes y) s | _, _ => [] end)
    (match v, pass with Some x, Some y => derived_now P a (b_bytes y) s | _, _ => [] end)
    (T_cipher_result :: buffer_kinds)
    some_failure
    (h_kdf_cipher P a c v pass s).
Proof. exact (op_sound _ _ _ _ _ _ _ _ _ (kdf_cipher_null_rule P R1 R2 R3 R4 R5 a c v pass s)). Qed.
Print Assumptions C81_kdf_cipher_partial.

Theorem C82_kdf_cipher_partial
  (P : prims) (R1 : rand_ok P) (R2 : aead_ok P) (R3 : ctr_ok P) (R4 : scrypt_ok P) (R5 : hkdf_ok P) a c v pass s :
  hides_op [oc buf_cells v; oc buf_cells pass]
    ((match v, pass with Some x, Some y => kdf_cipher_public P a c (b_bytes x) (b_bytes y) s | _, _ => [] end) ++ (match v, pass with Some x, Some y => derived_now P a (b_bytes y) s | _, _ => [] end))
    (h_kdf_cipher P a c v pass s).
Proof. exact (op_hides _ _ _ _ _ _ _ _ _ (kdf_cipher_null_rule P R1 R2 R3 R4 R5 a c v pass s)). Qed.
Print Assumptions C82_kdf_cipher_partial.

(* --- kdf_decipher *)
Theorem C80_kdf_decipher_partial
  (P : prims) (R1 : aead_len_ok P) (R2 : ctr_ok P) (R3 : scrypt_ok P) (R4 : hkdf_ok P) i pass draft (C : forall x y, i = Some x -> pass = Some y -> ~ not_a_ciphertext P (b_bytes x) (b_bytes y) /\ forall m, kdf_meta_create_with_buffer (Some (b_bytes x)) = Val m -> ~ empty_bcrypt (km_algo m) (b_bytes y)) :
  performs_cleanly buf_cells b_bytes [oc buf_cells i; oc buf_cells pass]
    (kdf_decipher P (option_map b_bytes i) (option_map b_bytes pass))
    (match i, pass with Some x, Some y => kdf_decipher_public (b_bytes x) (b_bytes y) | _, _ => [] end)
    (h_kdf_decipher P i pass draft).
Proof. exact (op_clean _ _ _ _ _ _ _ _ _ (op_sound _ _ _ _ _ _ _ _ _ (kdf_decipher_null_rule P R1 R2 R3 R4 i pass draft)) (kdf_decipher_fits P i pass C)). Qed.
Print Assumptions C80_kdf_decipher_partial.

Example C80_kdf_decipher_case : performed [buf_cells blob0; buf_cells aad0] (h_kdf_decipher toy (Some blob0) (Some aad0) []).
Proof. by_running. Qed.

Theorem C81_kdf_decipher_partial
  (P : prims) (R1 : aead_len_ok P) (R2 : ctr_ok P) (R3 : scrypt_ok P) (R4 : hkdf_ok P) i pass draft :
  performs_in_memory buf_cells b_bytes [oc buf_cells i; oc buf_cells pass]
    (kdf_decipher P (option_map b_bytes i) (option_map b_bytes pass))
    (match i, pass with Some x, Some y => kdf_decipher_public (b_bytes x) (b_bytes y) | _, _ => [] end)
    (match i, pass with Some x, Some y => kdf_decipher_derived P (b_bytes x) (b_bytes y) | _, _ => [] end)
    [T_cipher_result; T_cipher_key]
    (match i, pass with Some x, Some y => kdf_decipher_leak P (b_bytes x) (b_bytes y) | _, _ => never_leaks_op end)
    (h_kdf_decipher P i pass draft).
Proof. exact (op_sound _ _ _ _ _ _ _ _ _ (kdf_decipher_null_rule P R1 R2 R3 R4 i pass draft)). Qed.
Print Assumptions C81_kdf_decipher_partial.

Theorem C82_kdf_decipher_partial
  (P : prims) (R1 : aead_len_ok P) (R2 : ctr_ok P) (R3 : scrypt_ok P) (R4 : hkdf_ok P) i pass draft :
  hides_op [oc buf_cells i; oc buf_cells pass]
    ((match i, pass with Some x, Some y => kdf_decipher_public (b_bytes x) (b_bytes y) | _, _ => [] end) ++ (match i, pass with Some x, Some y => kdf_decipher_derived P (b_bytes x) (b_bytes y) | _, _ => [] end))
    (h_kdf_decipher P i pass draft).
Proof. exact (op_hides _ _ _ _ _ _ _ _ _ (kdf_decipher_null_rule P R1 R2 R3 R4 i pass draft)). Qed.
Print Assumptions C82_kdf_decipher_partial.

(* --- the conditions of the partial theorems hold of the cases above *)
Example C80_laws : rand_ok toy /\ aead_ok toy /\ aead_len_ok toy /\ ctr_ok toy /\ sha_ok toy /\ hmac_ok toy /\ hkdf_ok toy /\ sign_ok toy /\ scrypt_ok toy.
Proof.
  exact (conj toy_rand (conj toy_aead (conj toy_aead_len (conj toy_ctr (conj toy_sha (conj toy_hmac (conj toy_hkdf (conj toy_sign toy_scrypt)))))))).
Qed.
Example C80_encrypt_condition : forall x v, Some key0 = Some x -> Some iv0 = Some v -> blen (b_bytes v) <= iv_len (hck_cipher x).
Proof. intros x v E1 E2. injection E1 as <-. injection E2 as <-. discriminate. Qed.
Example C80_sign_condition : forall k q, Some pair0 = Some k -> hkey_pri k = Some q -> p_d2i toy (b_bytes q) <> None.
Proof. intros k q E1 E2. injection E1 as <-. injection E2 as <-. vm_compute. discriminate. Qed.
Example C80_kdf_condition : salt_fits KDF_BCRYPT_15 /\ forall x, Some text0 = Some x -> ~ empty_bcrypt KDF_BCRYPT_15 (b_bytes x).
Proof. split; [intros _; reflexivity|]. intros x E. injection E as <-. intros (_ & F). discriminate F. Qed.
Example C80_kdf_meta_condition : if_set made_kdf_meta (option_map km_value (Some meta0)) /\
  forall x y, Some meta0 = Some x -> Some text0 = Some y -> ~ empty_bcrypt (hkm_algo x) (b_bytes y).
Proof. exact kdf_meta_condition0. Qed.
Example C80_kdf_decipher_condition : forall x y, Some blob0 = Some x -> Some aad0 = Some y -> ~ not_a_ciphertext toy (b_bytes x) (b_bytes y) /\
  forall m, kdf_meta_create_with_buffer (Some (b_bytes x)) = Val m -> ~ empty_bcrypt (km_algo m) (b_bytes y).
Proof. exact kdf_decipher_condition0. Qed.

(* --- what goes wrong *)
Theorem C80_encrypt_refuted : op_leaves [buf_cells text0; ck_cells key0; buf_cells long0] never None (map flip (b_bytes text0)) (h_aes256_encrypt toy (Some text0) None (Some key0) (Some long0) 0).
Proof. exact C80_encrypt_refuted_ok. Qed.
Print Assumptions C80_encrypt_refuted.

Theorem C80_hmac_verify_refuted : op_leaves [buf_cells text0; buf_cells aad0] never false (b_bytes mac0) (h_hmac_verify toy (Some text0) (Some aad0) SHA256 None).
Proof. exact C80_hmac_verify_refuted_ok. Qed.
Print Assumptions C80_hmac_verify_refuted.

Theorem C80_sign_refuted : op_leaves [key_cells broken0; buf_cells text0] never None [] (h_ec_sign toy (Some broken0) (Some text0) SHA256 0).
Proof. exact C80_sign_refuted_ok. Qed.
Print Assumptions C80_sign_refuted.

Theorem C80_kdf_refuted : op_leaves [buf_cells empty0] never None [x00] (h_perform_kdf toy KDF_BCRYPT_15 (Some empty0) 0).
Proof. exact C80_kdf_refuted_ok. Qed.
Print Assumptions C80_kdf_refuted.

Theorem C80_kdf_decipher_refuted : op_leaves [buf_cells stray0; buf_cells aad0] never None derived0 (h_kdf_decipher toy (Some stray0) (Some aad0) []).
Proof. exact C80_kdf_decipher_refuted_ok. Qed.
Print Assumptions C80_kdf_decipher_refuted.

Theorem C81_random_refuted : op_crashes [] (h_crypto_random toy 32 0).
Proof. exact C81_random_refuted_ok. Qed.
Print Assumptions C81_random_refuted.

Theorem C81_random_key_refuted : op_crashes [] (h_cipher_key_random toy AES256_GCM 0).
Proof. exact C81_random_key_refuted_ok. Qed.
Print Assumptions C81_random_key_refuted.

Theorem C81_encrypt_refuted : op_crashes [buf_cells text0; ck_cells key0] (h_aes256_encrypt toy (Some text0) None (Some key0) None 0).
Proof. exact C81_encrypt_refuted_ok. Qed.
Print Assumptions C81_encrypt_refuted.

Theorem C81_hash_refuted : op_crashes [buf_cells text0] (h_sha2 toy (Some text0) None SHA256).
Proof. exact C81_hash_refuted_ok. Qed.
Print Assumptions C81_hash_refuted.

Theorem C81_generate_key_refuted : op_crashes [] (h_ec_rand_key toy P521 0).
Proof. exact C81_generate_key_refuted_ok. Qed.
Print Assumptions C81_generate_key_refuted.

Theorem C81_sign_refuted : op_crashes [key_cells pair0; buf_cells text0] (h_ec_sign toy (Some pair0) (Some text0) SHA256 0).
Proof. exact C81_sign_refuted_ok. Qed.
Print Assumptions C81_sign_refuted.

Theorem C81_verify_refuted : op_crashes [sig_cells sig0; key_cells pair0; buf_cells text0] (h_ec_verify toy (Some sig0) (Some pair0) (Some text0)).
Proof. exact C81_verify_refuted_ok. Qed.
Print Assumptions C81_verify_refuted.

Theorem C81_shared_secret_refuted : exists fails, op_leaves [key_cells pair0; key_cells pair1] fails None [] (h_gen_shared_secret toy (Some pair0) (Some pair1)).
Proof. exact C81_shared_secret_refuted_ok. Qed.
Print Assumptions C81_shared_secret_refuted.

Theorem C81_kdf_meta_refuted : exists fails, op_leaves [km_cells meta0; buf_cells text0] fails None hashed0 (h_perform_kdf_meta toy (Some meta0) (Some text0)).
Proof. exact C81_kdf_meta_refuted_ok. Qed.
Print Assumptions C81_kdf_meta_refuted.

Theorem C81_kdf_cipher_refuted : op_crashes [buf_cells text0; buf_cells aad0] (h_kdf_cipher toy KDF_SCRYPT_2_17 AES256_GCM (Some text0) (Some aad0) 0).
Proof. exact C81_kdf_cipher_refuted_ok. Qed.
Print Assumptions C81_kdf_cipher_refuted.

Theorem C81_kdf_decipher_refuted : op_crashes [buf_cells blob0; buf_cells aad0] (h_kdf_decipher toy (Some blob0) (Some aad0) []).
Proof. exact C81_kdf_decipher_refuted_ok. Qed.
Print Assumptions C81_kdf_decipher_refuted.

Theorem C82_kdf_refuted : op_exposes [buf_cells text0] never (b_bytes text0) (h_perform_kdf toy KDF_BCRYPT_15 (Some text0) 0).
Proof. exact C82_kdf_refuted_ok. Qed.
Print Assumptions C82_kdf_refuted.

Theorem C82_kdf_decipher_refuted : op_exposes [buf_cells bcrypted0; buf_cells text0] never (b_bytes text0) (h_kdf_decipher toy (Some bcrypted0) (Some text0) []).
Proof. exact C82_kdf_decipher_refuted_ok. Qed.
Print Assumptions C82_kdf_decipher_refuted.

Theorem C82_kdf_meta_refuted : exists fails, op_exposes [km_cells meta0; buf_cells text0] fails hashed0 (h_perform_kdf_meta toy (Some meta0) (Some text0)).
Proof. exact C82_kdf_meta_refuted_ok. Qed.
Print Assumptions C82_kdf_meta_refuted.
