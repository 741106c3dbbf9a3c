(* C83-C85: the messaging protocol's operations, as operations on memory *)
From Verif.Base Require Import Bytes Monad.
From Verif.Model Require Import Buffer Cipher Ecdsa Kdf Prims Engine Keys Identity Node EcdhCipher Exchange Payload Packet Ctx Heap HeapObjects HeapMessages HeapParse HeapEngine HeapProtocol.
From Verif.Spec Require Import HeapSpec HeapObjectSpec CopySpec HeapParseSpec HeapWriteSpec HeapEngineSpec HeapProtocolSpec.
From Verif.Proofs Require Import HeapFacts HeapObjectFacts HeapExamples HeapEngineFacts HeapKdfFacts HeapEngineExamples HeapProtocolFacts HeapExchangeFacts HeapPacketFacts HeapReadingFacts HeapDecodingFacts HeapProtocolExamples ToyPrims.
Local Open Scope N_scope.

(* --- agreement_create *)
Theorem C83_agreement_create
  (P : prims) crv c s :
  performs_cleanly ex_cells ex_value []
    (fst (ecdh_ctx_create P crv c s))
    []
    (h_ecdh_ctx_create P crv c s).
Proof. exact (op_clean _ _ _ _ _ _ _ _ _ (op_sound _ _ _ _ _ _ _ _ _ (ecdh_ctx_create_rule P crv c s)) (fun X => X)). Qed.
Print Assumptions C83_agreement_create.

Example C83_agreement_create_case : performed []
  (h_ecdh_ctx_create toy P521 AES256_GCM 0).
Proof. by_running. Qed.

Theorem C84_agreement_create_partial
  (P : prims) crv c s :
  performs_in_memory ex_cells ex_value []
    (fst (ecdh_ctx_create P crv c s))
    []
    []
    [T_openssl; T_ec_key]
    never_leaks_op
    (h_ecdh_ctx_create P crv c s).
Proof. exact (op_sound _ _ _ _ _ _ _ _ _ (ecdh_ctx_create_rule P crv c s)). Qed.
Print Assumptions C84_agreement_create_partial.

Theorem C85_agreement_create
  (P : prims) crv c s :
  hides_op []
    ([] ++ [])
    (h_ecdh_ctx_create P crv c s).
Proof. exact (op_hides _ _ _ _ _ _ _ _ _ (ecdh_ctx_create_rule P crv c s)). Qed.
Print Assumptions C85_agreement_create.

(* --- agreement_key *)
Theorem C83_agreement_key
  (P : prims) (R2 : hkdf_ok P) (R1 : scrypt_ok P) x r m (MM : if_set made_kdf_meta (option_map km_value m)) :
  performs_cleanly ck_cells ck_value [ex_cells x; oc key_cells r; oc km_cells m]
    (ecdh_gen_cipher_key P (ex_value x) (option_map key_value r) (option_map km_value m))
    (km_infos (option_map km_value m))
    (h_ecdh_gen_cipher_key P x r m).
Proof. exact (op_clean _ _ _ _ _ _ _ _ _ (op_sound _ _ _ _ _ _ _ _ _ (ecdh_gen_cipher_key_rule P R2 R1 x r m MM)) never_fails). Qed.
Print Assumptions C83_agreement_key.

Example C83_agreement_key_case : performed [ex_cells h_agreement; key_cells h_private; km_cells h_params]
  (h_ecdh_gen_cipher_key toy h_agreement (Some h_private) (Some h_params)).
Proof. by_running. Qed.

Theorem C84_agreement_key_partial
  (P : prims) (R2 : hkdf_ok P) (R1 : scrypt_ok P) x r m (MM : if_set made_kdf_meta (option_map km_value m)) :
  performs_in_memory ck_cells ck_value [ex_cells x; oc key_cells r; oc km_cells m]
    (ecdh_gen_cipher_key P (ex_value x) (option_map key_value r) (option_map km_value m))
    (km_infos (option_map km_value m))
    (agree_exposed P (ex_value x) (option_map key_value r) (option_map km_value m))
    [T_cipher_key]
    some_failure
    (h_ecdh_gen_cipher_key P x r m).
Proof. exact (op_sound _ _ _ _ _ _ _ _ _ (ecdh_gen_cipher_key_rule P R2 R1 x r m MM)). Qed.
Print Assumptions C84_agreement_key_partial.

Theorem C85_agreement_key_partial
  (P : prims) (R2 : hkdf_ok P) (R1 : scrypt_ok P) x r m (MM : if_set made_kdf_meta (option_map km_value m)) :
  hides_op [ex_cells x; oc key_cells r; oc km_cells m]
    ((km_infos (option_map km_value m)) ++ (agree_exposed P (ex_value x) (option_map key_value r) (option_map km_value m)))
    (h_ecdh_gen_cipher_key P x r m).
Proof. exact (op_hides _ _ _ _ _ _ _ _ _ (ecdh_gen_cipher_key_rule P R2 R1 x r m MM)). Qed.
Print Assumptions C85_agreement_key_partial.

(* --- agreement_encrypt *)
Theorem C83_agreement_encrypt
  (P : prims) (R : rand_ok P) (A : aead_ok P) (C : ctr_ok P) (R1 : scrypt_ok P) (R2 : hkdf_ok P) x p r m s (MM : if_set made_kdf_meta (option_map km_value m)) :
  performs_cleanly cr_cells cr_value [ex_cells x; oc buf_cells p; oc key_cells r; oc km_cells m]
    (fst (ecdh_cipher P (ex_value x) (option_map b_bytes p) (option_map key_value r) (option_map km_value m) s))
    (km_infos (option_map km_value m) ++ drawn P s (iv_len (hex_cipher x)))
    (h_ecdh_cipher P x p r m s).
Proof. exact (op_clean _ _ _ _ _ _ _ _ _ (op_sound _ _ _ _ _ _ _ _ _ (ecdh_cipher_rule P R A C R1 R2 x p r m s MM)) never_fails). Qed.
Print Assumptions C83_agreement_encrypt.

Example C83_agreement_encrypt_case : performed [ex_cells h_agreement; buf_cells h_data; key_cells h_private; km_cells h_params]
  (h_ecdh_cipher toy h_agreement (Some h_data) (Some h_private) (Some h_params) 9).
Proof. by_running. Qed.

Theorem C84_agreement_encrypt_partial
  (P : prims) (R : rand_ok P) (A : aead_ok P) (C : ctr_ok P) (R1 : scrypt_ok P) (R2 : hkdf_ok P) x p r m s (MM : if_set made_kdf_meta (option_map km_value m)) :
  performs_in_memory cr_cells cr_value [ex_cells x; oc buf_cells p; oc key_cells r; oc km_cells m]
    (fst (ecdh_cipher P (ex_value x) (option_map b_bytes p) (option_map key_value r) (option_map km_value m) s))
    (km_infos (option_map km_value m) ++ drawn P s (iv_len (hex_cipher x)))
    (agree_exposed P (ex_value x) (option_map key_value r) (option_map km_value m))
    (T_cipher_key :: encrypt_untested None)
    some_failure
    (h_ecdh_cipher P x p r m s).
Proof. exact (op_sound _ _ _ _ _ _ _ _ _ (ecdh_cipher_rule P R A C R1 R2 x p r m s MM)). Qed.
Print Assumptions C84_agreement_encrypt_partial.

Theorem C85_agreement_encrypt_partial
  (P : prims) (R : rand_ok P) (A : aead_ok P) (C : ctr_ok P) (R1 : scrypt_ok P) (R2 : hkdf_ok P) x p r m s (MM : if_set made_kdf_meta (option_map km_value m)) :
  hides_op [ex_cells x; oc buf_cells p; oc key_cells r; oc km_cells m]
    ((km_infos (option_map km_value m) ++ drawn P s (iv_len (hex_cipher x))) ++ (agree_exposed P (ex_value x) (option_map key_value r) (option_map km_value m)))
    (h_ecdh_cipher P x p r m s).
Proof. exact (op_hides _ _ _ _ _ _ _ _ _ (ecdh_cipher_rule P R A C R1 R2 x p r m s MM)). Qed.
Print Assumptions C85_agreement_encrypt_partial.

(* --- agreement_decrypt *)
Theorem C83_agreement_decrypt
  (P : prims) (A : aead_len_ok P) (C : ctr_ok P) (R1 : scrypt_ok P) (R2 : hkdf_ok P) x c r m draft (MM : if_set made_kdf_meta (option_map km_value m)) :
  performs_cleanly buf_cells b_bytes [ex_cells x; oc cr_cells c; oc key_cells r; oc km_cells m]
    (ecdh_decipher P (ex_value x) (option_map cr_value c) (option_map key_value r) (option_map km_value m))
    (km_infos (option_map km_value m))
    (h_ecdh_decipher P x c r m draft).
Proof. exact (op_clean _ _ _ _ _ _ _ _ _ (op_sound _ _ _ _ _ _ _ _ _ (ecdh_decipher_rule P A C R1 R2 x c r m draft MM)) never_fails). Qed.
Print Assumptions C83_agreement_decrypt.

Example C83_agreement_decrypt_case : performed [ex_cells h_agreement; cr_cells h_agreed_text; key_cells h_private; km_cells h_params]
  (h_ecdh_decipher toy h_agreement (Some h_agreed_text) (Some h_private) (Some h_params) []).
Proof. by_running. Qed.

Theorem C84_agreement_decrypt_partial
  (P : prims) (A : aead_len_ok P) (C : ctr_ok P) (R1 : scrypt_ok P) (R2 : hkdf_ok P) x c r m draft (MM : if_set made_kdf_meta (option_map km_value m)) :
  performs_in_memory buf_cells b_bytes [ex_cells x; oc cr_cells c; oc key_cells r; oc km_cells m]
    (ecdh_decipher P (ex_value x) (option_map cr_value c) (option_map key_value r) (option_map km_value m))
    (km_infos (option_map km_value m))
    (agree_exposed P (ex_value x) (option_map key_value r) (option_map km_value m))
    [T_cipher_key]
    some_failure
    (h_ecdh_decipher P x c r m draft).
Proof. exact (op_sound _ _ _ _ _ _ _ _ _ (ecdh_decipher_rule P A C R1 R2 x c r m draft MM)). Qed.
Print Assumptions C84_agreement_decrypt_partial.

Theorem C85_agreement_decrypt_partial
  (P : prims) (A : aead_len_ok P) (C : ctr_ok P) (R1 : scrypt_ok P) (R2 : hkdf_ok P) x c r m draft (MM : if_set made_kdf_meta (option_map km_value m)) :
  hides_op [ex_cells x; oc cr_cells c; oc key_cells r; oc km_cells m]
    ((km_infos (option_map km_value m)) ++ (agree_exposed P (ex_value x) (option_map key_value r) (option_map km_value m)))
    (h_ecdh_decipher P x c r m draft).
Proof. exact (op_hides _ _ _ _ _ _ _ _ _ (ecdh_decipher_rule P A C R1 R2 x c r m draft MM)). Qed.
Print Assumptions C85_agreement_decrypt_partial.

(* --- exchange_data *)
Theorem C83_exchange_data
  (P : prims) (R : rand_ok P) (A : aead_ok P) (C : ctr_ok P) (R1 : scrypt_ok P) (R2 : hkdf_ok P) se re k data c psk version s (MK : if_set made_ec_key (option_map key_value k)) :
  performs_cleanly kx_cells kx_value [oc ch_cells se; oc nd_cells re; oc key_cells k; oc buf_cells data; oc buf_cells psk]
    (fst (exchange_create_with_data P (option_map ch_value se) (option_map nd_value re) (option_map key_value k) (option_map b_bytes data) c (option_map b_bytes psk) version s))
    (create_public P (option_map ch_value se) (option_map nd_value re) (option_map key_value k) (option_map b_bytes data) c (option_map b_bytes psk) version s)
    (h_exchange_create_with_data P se re k data c psk version s).
Proof. exact (op_clean _ _ _ _ _ _ _ _ _ (op_sound _ _ _ _ _ _ _ _ _ (create_with_data_rule P R A C R1 R2 se re k data c psk version s MK)) never_fails). Qed.
Print Assumptions C83_exchange_data.

Example C83_exchange_data_case : performed [ch_cells h_sender; nd_cells h_node; key_cells h_exchange_key; buf_cells h_data; buf_cells h_psk]
  (h_exchange_create_with_data toy (Some h_sender) (Some h_node) (Some h_exchange_key) (Some h_data) AES256_GCM (Some h_psk) 4 0).
Proof. by_running. Qed.

Theorem C84_exchange_data_partial
  (P : prims) (R : rand_ok P) (A : aead_ok P) (C : ctr_ok P) (R1 : scrypt_ok P) (R2 : hkdf_ok P) se re k data c psk version s (MK : if_set made_ec_key (option_map key_value k)) :
  performs_in_memory kx_cells kx_value [oc ch_cells se; oc nd_cells re; oc key_cells k; oc buf_cells data; oc buf_cells psk]
    (fst (exchange_create_with_data P (option_map ch_value se) (option_map nd_value re) (option_map key_value k) (option_map b_bytes data) c (option_map b_bytes psk) version s))
    (create_public P (option_map ch_value se) (option_map nd_value re) (option_map key_value k) (option_map b_bytes data) c (option_map b_bytes psk) version s)
    (create_exposed P (option_map ch_value se) (option_map nd_value re) (option_map key_value k) c (option_map b_bytes psk) version)
    (T_ec_key :: T_cipher_key :: T_key_exchange :: encrypt_untested None)
    some_failure
    (h_exchange_create_with_data P se re k data c psk version s).
Proof. exact (op_sound _ _ _ _ _ _ _ _ _ (create_with_data_rule P R A C R1 R2 se re k data c psk version s MK)). Qed.
Print Assumptions C84_exchange_data_partial.

Theorem C85_exchange_data_partial
  (P : prims) (R : rand_ok P) (A : aead_ok P) (C : ctr_ok P) (R1 : scrypt_ok P) (R2 : hkdf_ok P) se re k data c psk version s (MK : if_set made_ec_key (option_map key_value k)) :
  hides_op [oc ch_cells se; oc nd_cells re; oc key_cells k; oc buf_cells data; oc buf_cells psk]
    ((create_public P (option_map ch_value se) (option_map nd_value re) (option_map key_value k) (option_map b_bytes data) c (option_map b_bytes psk) version s) ++ (create_exposed P (option_map ch_value se) (option_map nd_value re) (option_map key_value k) c (option_map b_bytes psk) version))
    (h_exchange_create_with_data P se re k data c psk version s).
Proof. exact (op_hides _ _ _ _ _ _ _ _ _ (create_with_data_rule P R A C R1 R2 se re k data c psk version s MK)). Qed.
Print Assumptions C85_exchange_data_partial.

(* --- exchange_key *)
Theorem C83_exchange_key
  (P : prims) (R : rand_ok P) (A : aead_ok P) (C : ctr_ok P) (R1 : scrypt_ok P) (R2 : hkdf_ok P) se re k pk psk version s (MK : if_set made_ec_key (option_map key_value k)) :
  performs_cleanly kx_cells kx_value [oc ch_cells se; oc nd_cells re; oc key_cells k; oc ck_cells pk; oc buf_cells psk]
    (fst (exchange_create_with_packet_key P (option_map ch_value se) (option_map nd_value re) (option_map key_value k) (option_map ck_value pk) (option_map b_bytes psk) version s))
    (wrap_public P (option_map ch_value se) (option_map nd_value re) (option_map key_value k) (option_map ck_value pk) (option_map b_bytes psk) version s)
    (h_exchange_create_with_packet_key P se re k pk psk version s).
Proof. exact (op_clean _ _ _ _ _ _ _ _ _ (op_sound _ _ _ _ _ _ _ _ _ (create_with_packet_key_rule P R A C R1 R2 se re k pk psk version s MK)) never_fails). Qed.
Print Assumptions C83_exchange_key.

Example C83_exchange_key_case : performed [ch_cells h_sender; nd_cells h_node; key_cells h_exchange_key; ck_cells h_packet_key; buf_cells h_psk]
  (h_exchange_create_with_packet_key toy (Some h_sender) (Some h_node) (Some h_exchange_key) (Some h_packet_key) (Some h_psk) 4 0).
Proof. by_running. Qed.

Theorem C84_exchange_key_partial
  (P : prims) (R : rand_ok P) (A : aead_ok P) (C : ctr_ok P) (R1 : scrypt_ok P) (R2 : hkdf_ok P) se re k pk psk version s (MK : if_set made_ec_key (option_map key_value k)) :
  performs_in_memory kx_cells kx_value [oc ch_cells se; oc nd_cells re; oc key_cells k; oc ck_cells pk; oc buf_cells psk]
    (fst (exchange_create_with_packet_key P (option_map ch_value se) (option_map nd_value re) (option_map key_value k) (option_map ck_value pk) (option_map b_bytes psk) version s))
    (wrap_public P (option_map ch_value se) (option_map nd_value re) (option_map key_value k) (option_map ck_value pk) (option_map b_bytes psk) version s)
    (wrap_exposed P (option_map ch_value se) (option_map nd_value re) (option_map key_value k) (option_map ck_value pk) (option_map b_bytes psk) version)
    (T_ec_key :: T_cipher_key :: T_key_exchange :: encrypt_untested None)
    some_failure
    (h_exchange_create_with_packet_key P se re k pk psk version s).
Proof. exact (op_sound _ _ _ _ _ _ _ _ _ (create_with_packet_key_rule P R A C R1 R2 se re k pk psk version s MK)). Qed.
Print Assumptions C84_exchange_key_partial.

Theorem C85_exchange_key_partial
  (P : prims) (R : rand_ok P) (A : aead_ok P) (C : ctr_ok P) (R1 : scrypt_ok P) (R2 : hkdf_ok P) se re k pk psk version s (MK : if_set made_ec_key (option_map key_value k)) :
  hides_op [oc ch_cells se; oc nd_cells re; oc key_cells k; oc ck_cells pk; oc buf_cells psk]
    ((wrap_public P (option_map ch_value se) (option_map nd_value re) (option_map key_value k) (option_map ck_value pk) (option_map b_bytes psk) version s) ++ (wrap_exposed P (option_map ch_value se) (option_map nd_value re) (option_map key_value k) (option_map ck_value pk) (option_map b_bytes psk) version))
    (h_exchange_create_with_packet_key P se re k pk psk version s).
Proof. exact (op_hides _ _ _ _ _ _ _ _ _ (create_with_packet_key_rule P R A C R1 R2 se re k pk psk version s MK)). Qed.
Print Assumptions C85_exchange_key_partial.

(* --- derive_data *)
Theorem C83_derive_data
  (P : prims) (A : aead_len_ok P) (C : ctr_ok P) (R1 : scrypt_ok P) (R2 : hkdf_ok P) se re remote x psk version draft (MK : receiver_made (option_map nd_value re)) :
  performs_cleanly buf_cells b_bytes [oc ch_cells se; oc nd_cells re; oc key_cells remote; oc kx_cells x; oc buf_cells psk]
    (exchange_derive_data P (option_map ch_value se) (option_map nd_value re) (option_map key_value remote) (option_map kx_value x) (option_map b_bytes psk) version)
    (derive_public (option_map ch_value se) (option_map nd_value re) version)
    (h_exchange_derive_data P se re remote x psk version draft).
Proof. exact (op_clean _ _ _ _ _ _ _ _ _ (op_sound _ _ _ _ _ _ _ _ _ (derive_data_rule P A C R1 R2 se re remote x psk version draft MK)) never_fails). Qed.
Print Assumptions C83_derive_data.

Example C83_derive_data_case : performed [ch_cells h_sender; nd_cells h_node; key_cells h_public; kx_cells h_exchange]
  (h_exchange_derive_data toy (Some h_sender) (Some h_node) (Some h_public) (Some h_exchange) None 4 []).
Proof. by_running. Qed.

Theorem C84_derive_data_partial
  (P : prims) (A : aead_len_ok P) (C : ctr_ok P) (R1 : scrypt_ok P) (R2 : hkdf_ok P) se re remote x psk version draft (MK : receiver_made (option_map nd_value re)) :
  performs_in_memory buf_cells b_bytes [oc ch_cells se; oc nd_cells re; oc key_cells remote; oc kx_cells x; oc buf_cells psk]
    (exchange_derive_data P (option_map ch_value se) (option_map nd_value re) (option_map key_value remote) (option_map kx_value x) (option_map b_bytes psk) version)
    (derive_public (option_map ch_value se) (option_map nd_value re) version)
    (derive_exposed P (option_map ch_value se) (option_map nd_value re) (option_map key_value remote) (option_map kx_value x) (option_map b_bytes psk) version)
    [T_ec_key; T_cipher_key]
    some_failure
    (h_exchange_derive_data P se re remote x psk version draft).
Proof. exact (op_sound _ _ _ _ _ _ _ _ _ (derive_data_rule P A C R1 R2 se re remote x psk version draft MK)). Qed.
Print Assumptions C84_derive_data_partial.

Theorem C85_derive_data_partial
  (P : prims) (A : aead_len_ok P) (C : ctr_ok P) (R1 : scrypt_ok P) (R2 : hkdf_ok P) se re remote x psk version draft (MK : receiver_made (option_map nd_value re)) :
  hides_op [oc ch_cells se; oc nd_cells re; oc key_cells remote; oc kx_cells x; oc buf_cells psk]
    ((derive_public (option_map ch_value se) (option_map nd_value re) version) ++ (derive_exposed P (option_map ch_value se) (option_map nd_value re) (option_map key_value remote) (option_map kx_value x) (option_map b_bytes psk) version))
    (h_exchange_derive_data P se re remote x psk version draft).
Proof. exact (op_hides _ _ _ _ _ _ _ _ _ (derive_data_rule P A C R1 R2 se re remote x psk version draft MK)). Qed.
Print Assumptions C85_derive_data_partial.

(* --- derive_key *)
Theorem C83_derive_key
  (P : prims) (A : aead_len_ok P) (C : ctr_ok P) (R1 : scrypt_ok P) (R2 : hkdf_ok P) se re remote x psk version draft (MK : receiver_made (option_map nd_value re)) :
  performs_cleanly ck_cells ck_value [oc ch_cells se; oc nd_cells re; oc key_cells remote; oc kx_cells x; oc buf_cells psk]
    (exchange_derive_packet_key P (option_map ch_value se) (option_map nd_value re) (option_map key_value remote) (option_map kx_value x) (option_map b_bytes psk) version)
    (derive_public (option_map ch_value se) (option_map nd_value re) version)
    (h_exchange_derive_packet_key P se re remote x psk version draft).
Proof. exact (op_clean _ _ _ _ _ _ _ _ _ (op_sound _ _ _ _ _ _ _ _ _ (derive_packet_key_rule P A C R1 R2 se re remote x psk version draft MK)) never_fails). Qed.
Print Assumptions C83_derive_key.

Example C83_derive_key_case : performed [ch_cells h_sender; nd_cells h_node; key_cells h_public; kx_cells h_exchange]
  (h_exchange_derive_packet_key toy (Some h_sender) (Some h_node) (Some h_public) (Some h_exchange) None 4 []).
Proof. by_running. Qed.

Theorem C84_derive_key_partial
  (P : prims) (A : aead_len_ok P) (C : ctr_ok P) (R1 : scrypt_ok P) (R2 : hkdf_ok P) se re remote x psk version draft (MK : receiver_made (option_map nd_value re)) :
  performs_in_memory ck_cells ck_value [oc ch_cells se; oc nd_cells re; oc key_cells remote; oc kx_cells x; oc buf_cells psk]
    (exchange_derive_packet_key P (option_map ch_value se) (option_map nd_value re) (option_map key_value remote) (option_map kx_value x) (option_map b_bytes psk) version)
    (derive_public (option_map ch_value se) (option_map nd_value re) version)
    (derive_exposed P (option_map ch_value se) (option_map nd_value re) (option_map key_value remote) (option_map kx_value x) (option_map b_bytes psk) version)
    [T_ec_key; T_cipher_key]
    some_failure
    (h_exchange_derive_packet_key P se re remote x psk version draft).
Proof. exact (op_sound _ _ _ _ _ _ _ _ _ (derive_packet_key_rule P A C R1 R2 se re remote x psk version draft MK)). Qed.
Print Assumptions C84_derive_key_partial.

Theorem C85_derive_key_partial
  (P : prims) (A : aead_len_ok P) (C : ctr_ok P) (R1 : scrypt_ok P) (R2 : hkdf_ok P) se re remote x psk version draft (MK : receiver_made (option_map nd_value re)) :
  hides_op [oc ch_cells se; oc nd_cells re; oc key_cells remote; oc kx_cells x; oc buf_cells psk]
    ((derive_public (option_map ch_value se) (option_map nd_value re) version) ++ (derive_exposed P (option_map ch_value se) (option_map nd_value re) (option_map key_value remote) (option_map kx_value x) (option_map b_bytes psk) version))
    (h_exchange_derive_packet_key P se re remote x psk version draft).
Proof. exact (op_hides _ _ _ _ _ _ _ _ _ (derive_packet_key_rule P A C R1 R2 se re remote x psk version draft MK)). Qed.
Print Assumptions C85_derive_key_partial.

(* --- header_encrypt *)
Theorem C83_header_encrypt
  (P : prims) (R : rand_ok P) (A : aead_ok P) (C : ctr_ok P) x k s :
  performs_cleanly cr_cells cr_value [oc xs_cells x; oc ck_cells k]
    (fst (exchange_set_encrypt P (option_map xs_value x) (option_map ck_value k) s))
    (opt_plain xs_written (option_map xs_value x) ++ nonce_of P (option_map ck_value k) s)
    (h_exchange_set_encrypt P x k s).
Proof. exact (op_clean _ _ _ _ _ _ _ _ _ (op_sound _ _ _ _ _ _ _ _ _ (exchange_set_encrypt_rule P R A C x k s)) (fun X => X)). Qed.
Print Assumptions C83_header_encrypt.

Example C83_header_encrypt_case : performed [xs_cells h_set; ck_cells h_header_key]
  (h_exchange_set_encrypt toy (Some h_set) (Some h_header_key) 1).
Proof. by_running. Qed.

Theorem C84_header_encrypt_partial
  (P : prims) (R : rand_ok P) (A : aead_ok P) (C : ctr_ok P) x k s :
  performs_in_memory cr_cells cr_value [oc xs_cells x; oc ck_cells k]
    (fst (exchange_set_encrypt P (option_map xs_value x) (option_map ck_value k) s))
    (opt_plain xs_written (option_map xs_value x) ++ nonce_of P (option_map ck_value k) s)
    []
    (encrypt_untested None)
    never_leaks_op
    (h_exchange_set_encrypt P x k s).
Proof. exact (op_sound _ _ _ _ _ _ _ _ _ (exchange_set_encrypt_rule P R A C x k s)). Qed.
Print Assumptions C84_header_encrypt_partial.

Theorem C85_header_encrypt
  (P : prims) (R : rand_ok P) (A : aead_ok P) (C : ctr_ok P) x k s :
  hides_op [oc xs_cells x; oc ck_cells k]
    ((opt_plain xs_written (option_map xs_value x) ++ nonce_of P (option_map ck_value k) s) ++ [])
    (h_exchange_set_encrypt P x k s).
Proof. exact (op_hides _ _ _ _ _ _ _ _ _ (exchange_set_encrypt_rule P R A C x k s)). Qed.
Print Assumptions C85_header_encrypt.

(* --- header_decrypt *)
Theorem C83_header_decrypt
  (P : prims) (A : aead_len_ok P) (C : ctr_ok P) c k draft :
  performs_cleanly xs_cells xs_value [oc cr_cells c; oc ck_cells k]
    (exchange_set_create_from_cipher P (option_map cr_value c) (option_map ck_value k))
    (plain_of (of_message pb_exchange_set_unpack exchange_set_fields exchange_set_public) (aes256_decrypt P (option_map cr_value c) None (option_map ck_value k) true))
    (h_exchange_set_create_from_cipher P c k draft).
Proof. exact (op_clean _ _ _ _ _ _ _ _ _ (op_sound _ _ _ _ _ _ _ _ _ (exchange_set_create_from_cipher_rule P A C c k draft)) (fun X => X)). Qed.
Print Assumptions C83_header_decrypt.

Example C83_header_decrypt_case : performed [cr_cells h_header; ck_cells h_header_key]
  (h_exchange_set_create_from_cipher toy (Some h_header) (Some h_header_key) []).
Proof. by_running. Qed.

Theorem C84_header_decrypt_partial
  (P : prims) (A : aead_len_ok P) (C : ctr_ok P) c k draft :
  performs_in_memory xs_cells xs_value [oc cr_cells c; oc ck_cells k]
    (exchange_set_create_from_cipher P (option_map cr_value c) (option_map ck_value k))
    (plain_of (of_message pb_exchange_set_unpack exchange_set_fields exchange_set_public) (aes256_decrypt P (option_map cr_value c) None (option_map ck_value k) true))
    []
    [T_cipher_result; T_key_exchange; T_ec_key]
    never_leaks_op
    (h_exchange_set_create_from_cipher P c k draft).
Proof. exact (op_sound _ _ _ _ _ _ _ _ _ (exchange_set_create_from_cipher_rule P A C c k draft)). Qed.
Print Assumptions C84_header_decrypt_partial.

Theorem C85_header_decrypt
  (P : prims) (A : aead_len_ok P) (C : ctr_ok P) c k draft :
  hides_op [oc cr_cells c; oc ck_cells k]
    ((plain_of (of_message pb_exchange_set_unpack exchange_set_fields exchange_set_public) (aes256_decrypt P (option_map cr_value c) None (option_map ck_value k) true)) ++ [])
    (h_exchange_set_create_from_cipher P c k draft).
Proof. exact (op_hides _ _ _ _ _ _ _ _ _ (exchange_set_create_from_cipher_rule P A C c k draft)). Qed.
Print Assumptions C85_header_decrypt.

(* --- exchange_find *)
Theorem C83_exchange_find
  set i (MD : if_set (fun s => Forall (if_set made_key_exchange) (xs_items s)) (option_map xs_value set)) :
  performs_cleanly kx_cells kx_value [oc xs_cells set; oc buf_cells i]
    (exchange_set_find (option_map xs_value set) (option_map b_bytes i))
    (opt_plain xs_plain (option_map xs_value set))
    (h_exchange_set_find set i).
Proof. exact (or_clean _ _ _ _ _ _ _ _ _ _ (exchange_set_find_rule set i MD) never_fails). Qed.
Print Assumptions C83_exchange_find.

Example C83_exchange_find_case : performed [xs_cells h_set; buf_cells h_node_id]
  (h_exchange_set_find (Some h_set) (Some h_node_id)).
Proof. by_running. Qed.

Theorem C84_exchange_find_partial
  set i (MD : if_set (fun s => Forall (if_set made_key_exchange) (xs_items s)) (option_map xs_value set)) :
  performs_or_worse kx_cells kx_value [oc xs_cells set; oc buf_cells i]
    (exchange_set_find (option_map xs_value set) (option_map b_bytes i))
    (found_dropped (exchange_set_find (option_map xs_value set) (option_map b_bytes i)))
    (opt_plain xs_plain (option_map xs_value set))
    []
    [T_cipher_result; T_key_exchange]
    some_failure
    (h_exchange_set_find set i).
Proof. exact (or_sound _ _ _ _ _ _ _ _ _ _ (exchange_set_find_rule set i MD)). Qed.
Print Assumptions C84_exchange_find_partial.

Theorem C85_exchange_find
  set i (MD : if_set (fun s => Forall (if_set made_key_exchange) (xs_items s)) (option_map xs_value set)) :
  hides_op [oc xs_cells set; oc buf_cells i]
    ((opt_plain xs_plain (option_map xs_value set)) ++ [])
    (h_exchange_set_find set i).
Proof. exact (or_hides _ _ _ _ _ _ _ _ _ _ (exchange_set_find_rule set i MD)). Qed.
Print Assumptions C85_exchange_find.

(* --- payload_encrypt *)
Theorem C83_payload_encrypt
  (P : prims) (R : rand_ok P) (A : aead_ok P) (C : ctr_ok P) x k s :
  performs_cleanly cr_cells cr_value [oc py_cells x; oc ck_cells k]
    (fst (payload_encrypt P (option_map py_value x) (option_map ck_value k) s))
    (nonce_of P (option_map ck_value k) s)
    (h_payload_encrypt P x k s).
Proof. exact (op_clean _ _ _ _ _ _ _ _ _ (op_sound _ _ _ _ _ _ _ _ _ (payload_encrypt_rule P R A C x k s)) (fun X => X)). Qed.
Print Assumptions C83_payload_encrypt.

Example C83_payload_encrypt_case : performed [py_cells h_payload; ck_cells h_packet_key]
  (h_payload_encrypt toy (Some h_payload) (Some h_packet_key) 2).
Proof. by_running. Qed.

Theorem C84_payload_encrypt_partial
  (P : prims) (R : rand_ok P) (A : aead_ok P) (C : ctr_ok P) x k s :
  performs_in_memory cr_cells cr_value [oc py_cells x; oc ck_cells k]
    (fst (payload_encrypt P (option_map py_value x) (option_map ck_value k) s))
    (nonce_of P (option_map ck_value k) s)
    []
    (encrypt_untested None)
    never_leaks_op
    (h_payload_encrypt P x k s).
Proof. exact (op_sound _ _ _ _ _ _ _ _ _ (payload_encrypt_rule P R A C x k s)). Qed.
Print Assumptions C84_payload_encrypt_partial.

Theorem C85_payload_encrypt
  (P : prims) (R : rand_ok P) (A : aead_ok P) (C : ctr_ok P) x k s :
  hides_op [oc py_cells x; oc ck_cells k]
    ((nonce_of P (option_map ck_value k) s) ++ [])
    (h_payload_encrypt P x k s).
Proof. exact (op_hides _ _ _ _ _ _ _ _ _ (payload_encrypt_rule P R A C x k s)). Qed.
Print Assumptions C85_payload_encrypt.

(* --- payload_decrypt *)
Theorem C83_payload_decrypt
  (P : prims) (A : aead_len_ok P) (C : ctr_ok P) c k draft :
  performs_cleanly py_cells py_value [oc cr_cells c; oc ck_cells k]
    (payload_create_from_cipher P (option_map cr_value c) (option_map ck_value k))
    (plain_of (of_message pb_payload_unpack payload_fields payload_public) (aes256_decrypt P (option_map cr_value c) None (option_map ck_value k) true))
    (h_payload_create_from_cipher P c k draft).
Proof. exact (op_clean _ _ _ _ _ _ _ _ _ (op_sound _ _ _ _ _ _ _ _ _ (payload_create_from_cipher_rule P A C c k draft)) (fun X => X)). Qed.
Print Assumptions C83_payload_decrypt.

Example C83_payload_decrypt_case : performed [cr_cells h_sealed; ck_cells h_packet_key]
  (h_payload_create_from_cipher toy (Some h_sealed) (Some h_packet_key) []).
Proof. by_running. Qed.

Theorem C84_payload_decrypt_partial
  (P : prims) (A : aead_len_ok P) (C : ctr_ok P) c k draft :
  performs_in_memory py_cells py_value [oc cr_cells c; oc ck_cells k]
    (payload_create_from_cipher P (option_map cr_value c) (option_map ck_value k))
    (plain_of (of_message pb_payload_unpack payload_fields payload_public) (aes256_decrypt P (option_map cr_value c) None (option_map ck_value k) true))
    []
    [T_packet_meta]
    never_leaks_op
    (h_payload_create_from_cipher P c k draft).
Proof. exact (op_sound _ _ _ _ _ _ _ _ _ (payload_create_from_cipher_rule P A C c k draft)). Qed.
Print Assumptions C84_payload_decrypt_partial.

Theorem C85_payload_decrypt_partial
  (P : prims) (A : aead_len_ok P) (C : ctr_ok P) c k draft :
  hides_op [oc cr_cells c; oc ck_cells k]
    ((plain_of (of_message pb_payload_unpack payload_fields payload_public) (aes256_decrypt P (option_map cr_value c) None (option_map ck_value k) true)) ++ [])
    (h_payload_create_from_cipher P c k draft).
Proof. exact (op_hides _ _ _ _ _ _ _ _ _ (payload_create_from_cipher_rule P A C c k draft)). Qed.
Print Assumptions C85_payload_decrypt_partial.

(* --- packet_sign *)
Theorem C83_packet_sign_partial
  (P : prims) (R : sign_ok P) hd p k version s
  (C0 : forall x q, k = Some x -> hkey_pri x = Some q -> p_d2i P (b_bytes q) <> None) :
  performs_cleanly pt_cells pt_value [oc cr_cells hd; oc cr_cells p; oc key_cells k]
    (fst (packet_create_with_components P (option_map cr_value hd) (option_map cr_value p) (option_map key_value k) version s))
    (packet_public P (option_map cr_value hd) (option_map cr_value p) (option_map key_value k) version s)
    (h_packet_create_with_components P hd p k version s).
Proof. exact (op_clean _ _ _ _ _ _ _ _ _ (op_sound _ _ _ _ _ _ _ _ _ (packet_create_rule P R hd p k version s)) (sign_fits P k C0)). Qed.
Print Assumptions C83_packet_sign_partial.

Example C83_packet_sign_case : performed [cr_cells h_header; cr_cells h_sealed; key_cells h_signing_key]
  (h_packet_create_with_components toy (Some h_header) (Some h_sealed) (Some h_signing_key) 4 3).
Proof. by_running. Qed.

Theorem C84_packet_sign_partial
  (P : prims) (R : sign_ok P) hd p k version s :
  performs_in_memory pt_cells pt_value [oc cr_cells hd; oc cr_cells p; oc key_cells k]
    (fst (packet_create_with_components P (option_map cr_value hd) (option_map cr_value p) (option_map key_value k) version s))
    (packet_public P (option_map cr_value hd) (option_map cr_value p) (option_map key_value k) version s)
    []
    [T_proto; T_buffer; T_data; T_openssl; T_ecdsa_result]
    (sign_leak P k)
    (h_packet_create_with_components P hd p k version s).
Proof. exact (op_sound _ _ _ _ _ _ _ _ _ (packet_create_rule P R hd p k version s)). Qed.
Print Assumptions C84_packet_sign_partial.

Theorem C85_packet_sign
  (P : prims) (R : sign_ok P) hd p k version s :
  hides_op [oc cr_cells hd; oc cr_cells p; oc key_cells k]
    ((packet_public P (option_map cr_value hd) (option_map cr_value p) (option_map key_value k) version s) ++ [])
    (h_packet_create_with_components P hd p k version s).
Proof. exact (op_hides _ _ _ _ _ _ _ _ _ (packet_create_rule P R hd p k version s)). Qed.
Print Assumptions C85_packet_sign.

(* --- packet_read *)
Theorem C83_packet_read
  (P : prims) (R : sha_ok P) (A : aead_len_ok P) (C : ctr_ok P) p id s draft :
  performs_cleanly pa_cells pa_value [oc pt_cells p; oc buf_cells id; oc ch_cells s]
    (parse_result_from_packet P (gen_header_key P) (option_map pt_value p) (option_map b_bytes id) (option_map ch_value s))
    (read_public P (option_map pt_value p) (option_map ch_value s))
    (h_parse_result_from_packet P p id s draft).
Proof. exact (or_clean _ _ _ _ _ _ _ _ _ _ (parse_result_from_packet_rule P R A C p id s draft) never_fails). Qed.
Print Assumptions C83_packet_read.

Example C83_packet_read_case : performed_with found [pt_cells h_packet; buf_cells h_node_id; ch_cells h_sender]
  (h_parse_result_from_packet toy (Some h_packet) (Some h_node_id) (Some h_sender) []).
Proof. by_running_with. Qed.

Theorem C84_packet_read_partial
  (P : prims) (R : sha_ok P) (A : aead_len_ok P) (C : ctr_ok P) p id s draft :
  performs_or_worse pa_cells pa_value [oc pt_cells p; oc buf_cells id; oc ch_cells s]
    (parse_result_from_packet P (gen_header_key P) (option_map pt_value p) (option_map b_bytes id) (option_map ch_value s))
    (read_worse (parse_result_from_packet P (gen_header_key P) (option_map pt_value p) (option_map b_bytes id) (option_map ch_value s)))
    (read_public P (option_map pt_value p) (option_map ch_value s))
    []
    (T_openssl :: T_cipher_result :: T_key_exchange :: T_ec_key :: T_cipher_key :: buffer_kinds)
    some_failure
    (h_parse_result_from_packet P p id s draft).
Proof. exact (or_sound _ _ _ _ _ _ _ _ _ _ (parse_result_from_packet_rule P R A C p id s draft)). Qed.
Print Assumptions C84_packet_read_partial.

Theorem C85_packet_read
  (P : prims) (R : sha_ok P) (A : aead_len_ok P) (C : ctr_ok P) p id s draft :
  hides_op [oc pt_cells p; oc buf_cells id; oc ch_cells s]
    ((read_public P (option_map pt_value p) (option_map ch_value s)) ++ [])
    (h_parse_result_from_packet P p id s draft).
Proof. exact (or_hides _ _ _ _ _ _ _ _ _ _ (parse_result_from_packet_rule P R A C p id s draft)). Qed.
Print Assumptions C85_packet_read.

(* --- ctx_read *)
Theorem C83_ctx_read_partial
  (P : prims) (R : sha_ok P) (A : aead_len_ok P) (C : ctr_ok P) b id s draft (MC : if_set made_chain (option_map ch_value s))
  (C0 : forall x, b = Some x -> ~ odd_signature (b_bytes x)) :
  performs_cleanly cp_cells cp_value [oc buf_cells b; oc buf_cells id; oc ch_cells s]
    (ctx_read_packet P (option_map b_bytes b) (option_map b_bytes id) (option_map ch_value s))
    (ctx_read_public P (option_map b_bytes b) (option_map ch_value s))
    (h_ctx_read_packet P b id s draft).
Proof. exact (or_clean _ _ _ _ _ _ _ _ _ _ (ctx_read_packet_rule P R A C b id s draft MC) (reading_fits b C0)). Qed.
Print Assumptions C83_ctx_read_partial.

Example C83_ctx_read_case : performed_with (fun t => found (hcp_parse t)) [buf_cells h_wire; buf_cells h_node_id; ch_cells h_sender]
  (h_ctx_read_packet toy (Some h_wire) (Some h_node_id) (Some h_sender) []).
Proof. by_running_with. Qed.

Theorem C84_ctx_read_partial
  (P : prims) (R : sha_ok P) (A : aead_len_ok P) (C : ctr_ok P) b id s draft (MC : if_set made_chain (option_map ch_value s)) :
  performs_or_worse cp_cells cp_value [oc buf_cells b; oc buf_cells id; oc ch_cells s]
    (ctx_read_packet P (option_map b_bytes b) (option_map b_bytes id) (option_map ch_value s))
    (ctx_read_worse P (option_map b_bytes b) (option_map b_bytes id) (option_map ch_value s))
    (ctx_read_public P (option_map b_bytes b) (option_map ch_value s))
    []
    (T_ecdsa_result :: T_openssl :: T_cipher_result :: T_key_exchange :: T_ec_key :: T_cipher_key :: buffer_kinds)
    (ctx_read_leak (option_map b_bytes b))
    (h_ctx_read_packet P b id s draft).
Proof. exact (or_sound _ _ _ _ _ _ _ _ _ _ (ctx_read_packet_rule P R A C b id s draft MC)). Qed.
Print Assumptions C84_ctx_read_partial.

Theorem C85_ctx_read
  (P : prims) (R : sha_ok P) (A : aead_len_ok P) (C : ctr_ok P) b id s draft (MC : if_set made_chain (option_map ch_value s)) :
  hides_op [oc buf_cells b; oc buf_cells id; oc ch_cells s]
    ((ctx_read_public P (option_map b_bytes b) (option_map ch_value s)) ++ [])
    (h_ctx_read_packet P b id s draft).
Proof. exact (or_hides _ _ _ _ _ _ _ _ _ _ (ctx_read_packet_rule P R A C b id s draft MC)). Qed.
Print Assumptions C85_ctx_read.

(* --- ctx_parse *)
Theorem C83_ctx_parse_partial
  (P : prims) (R : sha_ok P) (A : aead_len_ok P) (C : ctr_ok P) g b s draft (MC : if_set made_chain (option_map ch_value s))
  (C0 : forall x, b = Some x -> ~ odd_signature (b_bytes x)) :
  performs_cleanly cp_cells cp_value [oc cx_cells g; oc buf_cells b; oc ch_cells s]
    (ctx_parse_packet P (option_map cx_value g) (option_map b_bytes b) (option_map ch_value s))
    (ctx_read_public P (option_map b_bytes b) (option_map ch_value s))
    (h_ctx_parse_packet P g b s draft).
Proof. exact (or_clean _ _ _ _ _ _ _ _ _ _ (ctx_parse_packet_rule P R A C g b s draft MC) (reading_fits b C0)). Qed.
Print Assumptions C83_ctx_parse_partial.

Example C83_ctx_parse_case : performed_with (fun t => found (hcp_parse t)) [cx_cells h_ctx; buf_cells h_wire; ch_cells h_sender]
  (h_ctx_parse_packet toy (Some h_ctx) (Some h_wire) (Some h_sender) []).
Proof. by_running_with. Qed.

Theorem C84_ctx_parse_partial
  (P : prims) (R : sha_ok P) (A : aead_len_ok P) (C : ctr_ok P) g b s draft (MC : if_set made_chain (option_map ch_value s)) :
  performs_or_worse cp_cells cp_value [oc cx_cells g; oc buf_cells b; oc ch_cells s]
    (ctx_parse_packet P (option_map cx_value g) (option_map b_bytes b) (option_map ch_value s))
    (ctx_read_worse P (option_map b_bytes b) (option_map (fun x => id_identifier (ch_node (cx_chain x))) (option_map cx_value g)) (option_map ch_value s))
    (ctx_read_public P (option_map b_bytes b) (option_map ch_value s))
    []
    (T_ecdsa_result :: T_openssl :: T_cipher_result :: T_key_exchange :: T_ec_key :: T_cipher_key :: buffer_kinds)
    (ctx_read_leak (option_map b_bytes b))
    (h_ctx_parse_packet P g b s draft).
Proof. exact (or_sound _ _ _ _ _ _ _ _ _ _ (ctx_parse_packet_rule P R A C g b s draft MC)). Qed.
Print Assumptions C84_ctx_parse_partial.

Theorem C85_ctx_parse
  (P : prims) (R : sha_ok P) (A : aead_len_ok P) (C : ctr_ok P) g b s draft (MC : if_set made_chain (option_map ch_value s)) :
  hides_op [oc cx_cells g; oc buf_cells b; oc ch_cells s]
    ((ctx_read_public P (option_map b_bytes b) (option_map ch_value s)) ++ [])
    (h_ctx_parse_packet P g b s draft).
Proof. exact (or_hides _ _ _ _ _ _ _ _ _ _ (ctx_parse_packet_rule P R A C g b s draft MC)). Qed.
Print Assumptions C85_ctx_parse.

(* --- ctx_parse_no_decode *)
Theorem C83_ctx_parse_no_decode_partial
  (P : prims) (R : sha_ok P) (A : aead_len_ok P) (C : ctr_ok P) g b s draft (MC : if_set made_chain (option_map ch_value s))
  (C0 : forall x, b = Some x -> ~ odd_signature (b_bytes x)) :
  performs_cleanly cp_cells cp_value [oc cx_cells g; oc buf_cells b; oc ch_cells s]
    (ctx_parse_packet_no_decode P (option_map cx_value g) (option_map b_bytes b) (option_map ch_value s))
    (ctx_read_public P (option_map b_bytes b) (option_map ch_value s))
    (h_ctx_parse_packet_no_decode P g b s draft).
Proof. exact (or_clean _ _ _ _ _ _ _ _ _ _ (ctx_parse_packet_no_decode_rule P R A C g b s draft MC) (reading_fits b C0)). Qed.
Print Assumptions C83_ctx_parse_no_decode_partial.

Example C83_ctx_parse_no_decode_case : performed [cx_cells h_ctx; buf_cells h_wire; ch_cells h_sender]
  (h_ctx_parse_packet_no_decode toy (Some h_ctx) (Some h_wire) (Some h_sender) []).
Proof. by_running. Qed.

Theorem C84_ctx_parse_no_decode_partial
  (P : prims) (R : sha_ok P) (A : aead_len_ok P) (C : ctr_ok P) g b s draft (MC : if_set made_chain (option_map ch_value s)) :
  performs_or_worse cp_cells cp_value [oc cx_cells g; oc buf_cells b; oc ch_cells s]
    (ctx_parse_packet_no_decode P (option_map cx_value g) (option_map b_bytes b) (option_map ch_value s))
    (ctx_read_worse P (option_map b_bytes b) None (option_map ch_value s))
    (ctx_read_public P (option_map b_bytes b) (option_map ch_value s))
    []
    (T_ecdsa_result :: T_openssl :: T_cipher_result :: T_key_exchange :: T_ec_key :: T_cipher_key :: buffer_kinds)
    (ctx_read_leak (option_map b_bytes b))
    (h_ctx_parse_packet_no_decode P g b s draft).
Proof. exact (or_sound _ _ _ _ _ _ _ _ _ _ (ctx_parse_packet_no_decode_rule P R A C g b s draft MC)). Qed.
Print Assumptions C84_ctx_parse_no_decode_partial.

Theorem C85_ctx_parse_no_decode
  (P : prims) (R : sha_ok P) (A : aead_len_ok P) (C : ctr_ok P) g b s draft (MC : if_set made_chain (option_map ch_value s)) :
  hides_op [oc cx_cells g; oc buf_cells b; oc ch_cells s]
    ((ctx_read_public P (option_map b_bytes b) (option_map ch_value s)) ++ [])
    (h_ctx_parse_packet_no_decode P g b s draft).
Proof. exact (or_hides _ _ _ _ _ _ _ _ _ _ (ctx_parse_packet_no_decode_rule P R A C g b s draft MC)). Qed.
Print Assumptions C85_ctx_parse_no_decode.

(* --- packet_decode *)
Theorem C83_packet_decode
  (P : prims) (A : aead_len_ok P) (C : ctr_ok P) (R1 : scrypt_ok P) (R2 : hkdf_ok P) p a dev rk re se draft1 draft2 (MK : if_set made_ec_key (option_map key_value rk)) :
  performs_cleanly de_cells de_value [pt_cells p; oc pa_cells a; buf_cells dev; oc key_cells rk; ch_cells re; oc ch_cells se]
    (decode_result_from_parse_result P (pt_value p) (option_map pa_value a) (b_bytes dev) (option_map key_value rk) (ch_value re) (option_map ch_value se))
    (decode_public P (pt_value p) (option_map pa_value a) (b_bytes dev) (option_map key_value rk) (ch_value re) (option_map ch_value se))
    (h_decode_result_from_parse_result P p a dev rk re se draft1 draft2).
Proof. exact (or_clean _ _ _ _ _ _ _ _ _ _ (decode_result_rule P A C R1 R2 p a dev rk re se draft1 draft2 MK) never_fails). Qed.
Print Assumptions C83_packet_decode.

Example C83_packet_decode_case : performed_with decoded [pt_cells h_packet; pa_cells h_parse; buf_cells (hnd_dev_id h_node); key_cells h_private; ch_cells (hnd_chain h_node); ch_cells h_sender]
  (h_decode_result_from_parse_result toy h_packet (Some h_parse) (hnd_dev_id h_node) (Some h_private) (hnd_chain h_node) (Some h_sender) [] []).
Proof. by_running_with. Qed.

Theorem C84_packet_decode_partial
  (P : prims) (A : aead_len_ok P) (C : ctr_ok P) (R1 : scrypt_ok P) (R2 : hkdf_ok P) p a dev rk re se draft1 draft2 (MK : if_set made_ec_key (option_map key_value rk)) :
  performs_or_worse de_cells de_value [pt_cells p; oc pa_cells a; buf_cells dev; oc key_cells rk; ch_cells re; oc ch_cells se]
    (decode_result_from_parse_result P (pt_value p) (option_map pa_value a) (b_bytes dev) (option_map key_value rk) (ch_value re) (option_map ch_value se))
    (fun v => v = decode_failure ERROR_KEY_EXCHANGE_FAILED)
    (decode_public P (pt_value p) (option_map pa_value a) (b_bytes dev) (option_map key_value rk) (ch_value re) (option_map ch_value se))
    (decode_exposed P (pt_value p) (option_map pa_value a) (b_bytes dev) (option_map key_value rk) (ch_value re) (option_map ch_value se))
    [T_ec_key; T_cipher_key; T_packet_meta]
    some_failure
    (h_decode_result_from_parse_result P p a dev rk re se draft1 draft2).
Proof. exact (or_sound _ _ _ _ _ _ _ _ _ _ (decode_result_rule P A C R1 R2 p a dev rk re se draft1 draft2 MK)). Qed.
Print Assumptions C84_packet_decode_partial.

Theorem C85_packet_decode_partial
  (P : prims) (A : aead_len_ok P) (C : ctr_ok P) (R1 : scrypt_ok P) (R2 : hkdf_ok P) p a dev rk re se draft1 draft2 (MK : if_set made_ec_key (option_map key_value rk)) :
  hides_op [pt_cells p; oc pa_cells a; buf_cells dev; oc key_cells rk; ch_cells re; oc ch_cells se]
    ((decode_public P (pt_value p) (option_map pa_value a) (b_bytes dev) (option_map key_value rk) (ch_value re) (option_map ch_value se)) ++ (decode_exposed P (pt_value p) (option_map pa_value a) (b_bytes dev) (option_map key_value rk) (ch_value re) (option_map ch_value se)))
    (h_decode_result_from_parse_result P p a dev rk re se draft1 draft2).
Proof. exact (or_hides _ _ _ _ _ _ _ _ _ _ (decode_result_rule P A C R1 R2 p a dev rk re se draft1 draft2 MK)). Qed.
Print Assumptions C85_packet_decode_partial.

(* --- ctx_decode *)
Theorem C83_ctx_decode
  (P : prims) (A : aead_len_ok P) (C : ctr_ok P) (R1 : scrypt_ok P) (R2 : hkdf_ok P) g q rk draft1 draft2 (MK : if_set made_ec_key (option_map key_value rk)) :
  performs_cleanly de_cells de_value [oc cx_cells g; oc cp_cells q; oc key_cells rk]
    (ctx_decode_packet P (option_map cx_value g) (option_map cp_value q) (option_map key_value rk))
    (match option_map cx_value g, option_map cp_value q with | Some x, Some y => decode_public P (cp_packet y) (Some (cp_parse y)) (di_msg_proto_id (cx_dev x)) (option_map key_value rk) (cx_chain x) (Some (cp_sender y)) | _, _ => [] end)
    (h_ctx_decode_packet P g q rk draft1 draft2).
Proof. exact (or_clean _ _ _ _ _ _ _ _ _ _ (ctx_decode_packet_rule P A C R1 R2 g q rk draft1 draft2 MK) never_fails). Qed.
Print Assumptions C83_ctx_decode.

Example C83_ctx_decode_case : performed_with decoded [cx_cells h_ctx; cp_cells h_received; key_cells h_private]
  (h_ctx_decode_packet toy (Some h_ctx) (Some h_received) (Some h_private) [] []).
Proof. by_running_with. Qed.

Theorem C84_ctx_decode_partial
  (P : prims) (A : aead_len_ok P) (C : ctr_ok P) (R1 : scrypt_ok P) (R2 : hkdf_ok P) g q rk draft1 draft2 (MK : if_set made_ec_key (option_map key_value rk)) :
  performs_or_worse de_cells de_value [oc cx_cells g; oc cp_cells q; oc key_cells rk]
    (ctx_decode_packet P (option_map cx_value g) (option_map cp_value q) (option_map key_value rk))
    (fun v => v = decode_failure ERROR_KEY_EXCHANGE_FAILED)
    (match option_map cx_value g, option_map cp_value q with | Some x, Some y => decode_public P (cp_packet y) (Some (cp_parse y)) (di_msg_proto_id (cx_dev x)) (option_map key_value rk) (cx_chain x) (Some (cp_sender y)) | _, _ => [] end)
    (match option_map cx_value g, option_map cp_value q with | Some x, Some y => decode_exposed P (cp_packet y) (Some (cp_parse y)) (di_msg_proto_id (cx_dev x)) (option_map key_value rk) (cx_chain x) (Some (cp_sender y)) | _, _ => [] end)
    [T_ec_key; T_cipher_key; T_packet_meta]
    some_failure
    (h_ctx_decode_packet P g q rk draft1 draft2).
Proof. exact (or_sound _ _ _ _ _ _ _ _ _ _ (ctx_decode_packet_rule P A C R1 R2 g q rk draft1 draft2 MK)). Qed.
Print Assumptions C84_ctx_decode_partial.

Theorem C85_ctx_decode_partial
  (P : prims) (A : aead_len_ok P) (C : ctr_ok P) (R1 : scrypt_ok P) (R2 : hkdf_ok P) g q rk draft1 draft2 (MK : if_set made_ec_key (option_map key_value rk)) :
  hides_op [oc cx_cells g; oc cp_cells q; oc key_cells rk]
    ((match option_map cx_value g, option_map cp_value q with | Some x, Some y => decode_public P (cp_packet y) (Some (cp_parse y)) (di_msg_proto_id (cx_dev x)) (option_map key_value rk) (cx_chain x) (Some (cp_sender y)) | _, _ => [] end) ++ (match option_map cx_value g, option_map cp_value q with | Some x, Some y => decode_exposed P (cp_packet y) (Some (cp_parse y)) (di_msg_proto_id (cx_dev x)) (option_map key_value rk) (cx_chain x) (Some (cp_sender y)) | _, _ => [] end))
    (h_ctx_decode_packet P g q rk draft1 draft2).
Proof. exact (or_hides _ _ _ _ _ _ _ _ _ _ (ctx_decode_packet_rule P A C R1 R2 g q rk draft1 draft2 MK)). Qed.
Print Assumptions C85_ctx_decode_partial.

(* --- cipher_local *)
Theorem C83_cipher_local
  (P : prims) (R : rand_ok P) (A : aead_ok P) (C : ctr_ok P) g p s :
  performs_cleanly cr_cells cr_value [oc cx_cells g; oc buf_cells p]
    (fst (ctx_cipher_local P (option_map cx_value g) (option_map b_bytes p) s))
    (nonce_of P (option_map (fun x => sk_local (cx_storage x)) (option_map cx_value g)) s)
    (h_ctx_cipher_local P g p s).
Proof. exact (op_clean _ _ _ _ _ _ _ _ _ (op_sound _ _ _ _ _ _ _ _ _ (cipher_local_rule P R A C g p s)) (fun X => X)). Qed.
Print Assumptions C83_cipher_local.

Example C83_cipher_local_case : performed [cx_cells h_ctx; buf_cells h_data]
  (h_ctx_cipher_local toy (Some h_ctx) (Some h_data) 7).
Proof. by_running. Qed.

Theorem C84_cipher_local_partial
  (P : prims) (R : rand_ok P) (A : aead_ok P) (C : ctr_ok P) g p s :
  performs_in_memory cr_cells cr_value [oc cx_cells g; oc buf_cells p]
    (fst (ctx_cipher_local P (option_map cx_value g) (option_map b_bytes p) s))
    (nonce_of P (option_map (fun x => sk_local (cx_storage x)) (option_map cx_value g)) s)
    []
    (encrypt_untested None)
    never_leaks_op
    (h_ctx_cipher_local P g p s).
Proof. exact (op_sound _ _ _ _ _ _ _ _ _ (cipher_local_rule P R A C g p s)). Qed.
Print Assumptions C84_cipher_local_partial.

Theorem C85_cipher_local
  (P : prims) (R : rand_ok P) (A : aead_ok P) (C : ctr_ok P) g p s :
  hides_op [oc cx_cells g; oc buf_cells p]
    ((nonce_of P (option_map (fun x => sk_local (cx_storage x)) (option_map cx_value g)) s) ++ [])
    (h_ctx_cipher_local P g p s).
Proof. exact (op_hides _ _ _ _ _ _ _ _ _ (cipher_local_rule P R A C g p s)). Qed.
Print Assumptions C85_cipher_local.

(* --- decipher_local *)
Theorem C83_decipher_local
  (P : prims) (A : aead_len_ok P) (C : ctr_ok P) g c draft :
  performs_cleanly buf_cells b_bytes [oc cx_cells g; oc cr_cells c]
    (ctx_decipher_local P (option_map cx_value g) (option_map cr_value c))
    []
    (h_ctx_decipher_local P g c draft).
Proof. exact (op_clean _ _ _ _ _ _ _ _ _ (op_sound _ _ _ _ _ _ _ _ _ (decipher_local_rule P A C g c draft)) (fun X => X)). Qed.
Print Assumptions C83_decipher_local.

Example C83_decipher_local_case : performed [cx_cells h_ctx; cr_cells h_stored]
  (h_ctx_decipher_local toy (Some h_ctx) (Some h_stored) []).
Proof. by_running. Qed.

Theorem C84_decipher_local
  (P : prims) (A : aead_len_ok P) (C : ctr_ok P) g c draft :
  performs_safely buf_cells b_bytes [oc cx_cells g; oc cr_cells c]
    (ctx_decipher_local P (option_map cx_value g) (option_map cr_value c))
    [] (h_ctx_decipher_local P g c draft).
Proof. exact (op_strict _ _ _ _ _ _ (op_sound _ _ _ _ _ _ _ _ _ (decipher_local_rule P A C g c draft))). Qed.
Print Assumptions C84_decipher_local.

Theorem C85_decipher_local
  (P : prims) (A : aead_len_ok P) (C : ctr_ok P) g c draft :
  hides_op [oc cx_cells g; oc cr_cells c]
    ([] ++ [])
    (h_ctx_decipher_local P g c draft).
Proof. exact (op_hides _ _ _ _ _ _ _ _ _ (decipher_local_rule P A C g c draft)). Qed.
Print Assumptions C85_decipher_local.

(* --- cipher_remote *)
Theorem C83_cipher_remote
  (P : prims) (R : rand_ok P) (A : aead_ok P) (C : ctr_ok P) g p s :
  performs_cleanly cr_cells cr_value [oc cx_cells g; oc buf_cells p]
    (fst (ctx_cipher_remote P (option_map cx_value g) (option_map b_bytes p) s))
    (nonce_of P (option_map (fun x => sk_remote (cx_storage x)) (option_map cx_value g)) s)
    (h_ctx_cipher_remote P g p s).
Proof. exact (op_clean _ _ _ _ _ _ _ _ _ (op_sound _ _ _ _ _ _ _ _ _ (cipher_remote_rule P R A C g p s)) (fun X => X)). Qed.
Print Assumptions C83_cipher_remote.

Example C83_cipher_remote_case : performed [cx_cells h_ctx; buf_cells h_data]
  (h_ctx_cipher_remote toy (Some h_ctx) (Some h_data) 8).
Proof. by_running. Qed.

Theorem C84_cipher_remote_partial
  (P : prims) (R : rand_ok P) (A : aead_ok P) (C : ctr_ok P) g p s :
  performs_in_memory cr_cells cr_value [oc cx_cells g; oc buf_cells p]
    (fst (ctx_cipher_remote P (option_map cx_value g) (option_map b_bytes p) s))
    (nonce_of P (option_map (fun x => sk_remote (cx_storage x)) (option_map cx_value g)) s)
    []
    (encrypt_untested None)
    never_leaks_op
    (h_ctx_cipher_remote P g p s).
Proof. exact (op_sound _ _ _ _ _ _ _ _ _ (cipher_remote_rule P R A C g p s)). Qed.
Print Assumptions C84_cipher_remote_partial.

Theorem C85_cipher_remote
  (P : prims) (R : rand_ok P) (A : aead_ok P) (C : ctr_ok P) g p s :
  hides_op [oc cx_cells g; oc buf_cells p]
    ((nonce_of P (option_map (fun x => sk_remote (cx_storage x)) (option_map cx_value g)) s) ++ [])
    (h_ctx_cipher_remote P g p s).
Proof. exact (op_hides _ _ _ _ _ _ _ _ _ (cipher_remote_rule P R A C g p s)). Qed.
Print Assumptions C85_cipher_remote.

(* --- decipher_remote *)
Theorem C83_decipher_remote
  (P : prims) (A : aead_len_ok P) (C : ctr_ok P) g c draft :
  performs_cleanly buf_cells b_bytes [oc cx_cells g; oc cr_cells c]
    (ctx_decipher_remote P (option_map cx_value g) (option_map cr_value c))
    []
    (h_ctx_decipher_remote P g c draft).
Proof. exact (op_clean _ _ _ _ _ _ _ _ _ (op_sound _ _ _ _ _ _ _ _ _ (decipher_remote_rule P A C g c draft)) (fun X => X)). Qed.
Print Assumptions C83_decipher_remote.

Example C83_decipher_remote_case : performed [cx_cells h_ctx; cr_cells h_shared]
  (h_ctx_decipher_remote toy (Some h_ctx) (Some h_shared) []).
Proof. by_running. Qed.

Theorem C84_decipher_remote
  (P : prims) (A : aead_len_ok P) (C : ctr_ok P) g c draft :
  performs_safely buf_cells b_bytes [oc cx_cells g; oc cr_cells c]
    (ctx_decipher_remote P (option_map cx_value g) (option_map cr_value c))
    [] (h_ctx_decipher_remote P g c draft).
Proof. exact (op_strict _ _ _ _ _ _ (op_sound _ _ _ _ _ _ _ _ _ (decipher_remote_rule P A C g c draft))). Qed.
Print Assumptions C84_decipher_remote.

Theorem C85_decipher_remote
  (P : prims) (A : aead_len_ok P) (C : ctr_ok P) g c draft :
  hides_op [oc cx_cells g; oc cr_cells c]
    ([] ++ [])
    (h_ctx_decipher_remote P g c draft).
Proof. exact (op_hides _ _ _ _ _ _ _ _ _ (decipher_remote_rule P A C g c draft)). Qed.
Print Assumptions C85_decipher_remote.

(* --- export_recovery_key *)
Theorem C83_export_recovery_key
  (P : prims) (R : rand_ok P) (A : aead_ok P) (C : ctr_ok P) (R1 : scrypt_ok P) (R2 : hkdf_ok P) g p s :
  performs_cleanly buf_cells b_bytes [oc gr_cells g; oc buf_cells p]
    (fst (export_recovery_key_passphrase P (option_map gr_value g) (option_map b_bytes p) s))
    (protect_public P (match option_map gr_value g with Some x => lift (cipher_key_serialize (Some (gr_recovery_key x))) | None => Null end) (option_map b_bytes p) s)
    (h_export_recovery_key_passphrase P g p s).
Proof. exact (op_clean _ _ _ _ _ _ _ _ _ (op_sound _ _ _ _ _ _ _ _ _ (export_recovery_key_rule P R A C R1 R2 g p s)) never_fails). Qed.
Print Assumptions C83_export_recovery_key.

Example C83_export_recovery_key_case : performed [gr_cells h_gen; buf_cells h_pass]
  (h_export_recovery_key_passphrase toy (Some h_gen) (Some h_pass) 4).
Proof. by_running. Qed.

Theorem C84_export_recovery_key_partial
  (P : prims) (R : rand_ok P) (A : aead_ok P) (C : ctr_ok P) (R1 : scrypt_ok P) (R2 : hkdf_ok P) g p s :
  performs_in_memory buf_cells b_bytes [oc gr_cells g; oc buf_cells p]
    (fst (export_recovery_key_passphrase P (option_map gr_value g) (option_map b_bytes p) s))
    (protect_public P (match option_map gr_value g with Some x => lift (cipher_key_serialize (Some (gr_recovery_key x))) | None => Null end) (option_map b_bytes p) s)
    (protect_exposed P (option_map b_bytes p) s)
    (T_cipher_result :: buffer_kinds)
    some_failure
    (h_export_recovery_key_passphrase P g p s).
Proof. exact (op_sound _ _ _ _ _ _ _ _ _ (export_recovery_key_rule P R A C R1 R2 g p s)). Qed.
Print Assumptions C84_export_recovery_key_partial.

Theorem C85_export_recovery_key_partial
  (P : prims) (R : rand_ok P) (A : aead_ok P) (C : ctr_ok P) (R1 : scrypt_ok P) (R2 : hkdf_ok P) g p s :
  hides_op [oc gr_cells g; oc buf_cells p]
    ((protect_public P (match option_map gr_value g with Some x => lift (cipher_key_serialize (Some (gr_recovery_key x))) | None => Null end) (option_map b_bytes p) s) ++ (protect_exposed P (option_map b_bytes p) s))
    (h_export_recovery_key_passphrase P g p s).
Proof. exact (op_hides _ _ _ _ _ _ _ _ _ (export_recovery_key_rule P R A C R1 R2 g p s)). Qed.
Print Assumptions C85_export_recovery_key_partial.

(* --- import_recovery_key *)
Theorem C83_import_recovery_key_partial
  (P : prims) (A : aead_len_ok P) (C : ctr_ok P) (R1 : scrypt_ok P) (R2 : hkdf_ok P) e p draft
  (C0 : forall x y, e = Some x -> p = Some y -> ~ not_a_ciphertext P (b_bytes x) (b_bytes y) /\
     forall m, kdf_meta_create_with_buffer (Some (b_bytes x)) = Val m -> ~ empty_bcrypt (km_algo m) (b_bytes y)) :
  performs_cleanly ck_cells ck_value [oc buf_cells e; oc buf_cells p]
    (import_recovery_key_passphrase P (option_map b_bytes e) (option_map b_bytes p))
    (unprotect_public P no_bytes (option_map b_bytes e) (option_map b_bytes p))
    (h_import_recovery_key_passphrase P e p draft).
Proof. exact (op_clean _ _ _ _ _ _ _ _ _ (op_sound _ _ _ _ _ _ _ _ _ (import_recovery_key_rule P A C R1 R2 e p draft)) (unprotect_fits P e p C0)). Qed.
Print Assumptions C83_import_recovery_key_partial.

Example C83_import_recovery_key_case : performed [buf_cells h_recovery_key; buf_cells h_pass]
  (h_import_recovery_key_passphrase toy (Some h_recovery_key) (Some h_pass) []).
Proof. by_running. Qed.

Theorem C84_import_recovery_key_partial
  (P : prims) (A : aead_len_ok P) (C : ctr_ok P) (R1 : scrypt_ok P) (R2 : hkdf_ok P) e p draft :
  performs_in_memory ck_cells ck_value [oc buf_cells e; oc buf_cells p]
    (import_recovery_key_passphrase P (option_map b_bytes e) (option_map b_bytes p))
    (unprotect_public P no_bytes (option_map b_bytes e) (option_map b_bytes p))
    (unprotect_exposed P (option_map b_bytes e) (option_map b_bytes p))
    [T_cipher_result; T_cipher_key]
    (unprotect_leak P (option_map b_bytes e) (option_map b_bytes p))
    (h_import_recovery_key_passphrase P e p draft).
Proof. exact (op_sound _ _ _ _ _ _ _ _ _ (import_recovery_key_rule P A C R1 R2 e p draft)). Qed.
Print Assumptions C84_import_recovery_key_partial.

Theorem C85_import_recovery_key_partial
  (P : prims) (A : aead_len_ok P) (C : ctr_ok P) (R1 : scrypt_ok P) (R2 : hkdf_ok P) e p draft :
  hides_op [oc buf_cells e; oc buf_cells p]
    ((unprotect_public P no_bytes (option_map b_bytes e) (option_map b_bytes p)) ++ (unprotect_exposed P (option_map b_bytes e) (option_map b_bytes p)))
    (h_import_recovery_key_passphrase P e p draft).
Proof. exact (op_hides _ _ _ _ _ _ _ _ _ (import_recovery_key_rule P A C R1 R2 e p draft)). Qed.
Print Assumptions C85_import_recovery_key_partial.

(* --- export_storage_keys *)
Theorem C83_export_storage_keys
  (P : prims) (R : rand_ok P) (A : aead_ok P) (C : ctr_ok P) (R1 : scrypt_ok P) (R2 : hkdf_ok P) g p s :
  performs_cleanly buf_cells b_bytes [oc cx_cells g; oc buf_cells p]
    (fst (ctx_export_storage_keys P (option_map cx_value g) (option_map b_bytes p) s))
    (opt_plain (fun x => sk_written (cx_storage x)) (option_map cx_value g) ++ protect_public P (match option_map cx_value g with Some x => storage_keys_serialize (Some (cx_storage x)) | None => Null end) (option_map b_bytes p) s)
    (h_ctx_export_storage_keys P g p s).
Proof. exact (op_clean _ _ _ _ _ _ _ _ _ (op_sound _ _ _ _ _ _ _ _ _ (export_storage_keys_rule P R A C R1 R2 g p s)) never_fails). Qed.
Print Assumptions C83_export_storage_keys.

Example C83_export_storage_keys_case : performed [cx_cells h_ctx; buf_cells h_pass]
  (h_ctx_export_storage_keys toy (Some h_ctx) (Some h_pass) 5).
Proof. by_running. Qed.

Theorem C84_export_storage_keys_partial
  (P : prims) (R : rand_ok P) (A : aead_ok P) (C : ctr_ok P) (R1 : scrypt_ok P) (R2 : hkdf_ok P) g p s :
  performs_in_memory buf_cells b_bytes [oc cx_cells g; oc buf_cells p]
    (fst (ctx_export_storage_keys P (option_map cx_value g) (option_map b_bytes p) s))
    (opt_plain (fun x => sk_written (cx_storage x)) (option_map cx_value g) ++ protect_public P (match option_map cx_value g with Some x => storage_keys_serialize (Some (cx_storage x)) | None => Null end) (option_map b_bytes p) s)
    (protect_exposed P (option_map b_bytes p) s)
    (T_proto :: T_cipher_result :: buffer_kinds)
    some_failure
    (h_ctx_export_storage_keys P g p s).
Proof. exact (op_sound _ _ _ _ _ _ _ _ _ (export_storage_keys_rule P R A C R1 R2 g p s)). Qed.
Print Assumptions C84_export_storage_keys_partial.

Theorem C85_export_storage_keys_partial
  (P : prims) (R : rand_ok P) (A : aead_ok P) (C : ctr_ok P) (R1 : scrypt_ok P) (R2 : hkdf_ok P) g p s :
  hides_op [oc cx_cells g; oc buf_cells p]
    ((opt_plain (fun x => sk_written (cx_storage x)) (option_map cx_value g) ++ protect_public P (match option_map cx_value g with Some x => storage_keys_serialize (Some (cx_storage x)) | None => Null end) (option_map b_bytes p) s) ++ (protect_exposed P (option_map b_bytes p) s))
    (h_ctx_export_storage_keys P g p s).
Proof. exact (op_hides _ _ _ _ _ _ _ _ _ (export_storage_keys_rule P R A C R1 R2 g p s)). Qed.
Print Assumptions C85_export_storage_keys_partial.

(* --- import_storage_keys *)
Theorem C83_import_storage_keys_partial
  (P : prims) (A : aead_len_ok P) (C : ctr_ok P) (R1 : scrypt_ok P) (R2 : hkdf_ok P) e p draft
  (C0 : forall x y, e = Some x -> p = Some y -> ~ not_a_ciphertext P (b_bytes x) (b_bytes y) /\
     forall m, kdf_meta_create_with_buffer (Some (b_bytes x)) = Val m -> ~ empty_bcrypt (km_algo m) (b_bytes y)) :
  performs_cleanly sk_cells sk_value [oc buf_cells e; oc buf_cells p]
    (ctx_import_storage_keys P (option_map b_bytes e) (option_map b_bytes p))
    (unprotect_public P (of_message pb_storage_keys_unpack storage_keys_fields no_bytes) (option_map b_bytes e) (option_map b_bytes p))
    (h_ctx_import_storage_keys P e p draft).
Proof. exact (op_clean _ _ _ _ _ _ _ _ _ (op_sound _ _ _ _ _ _ _ _ _ (import_storage_keys_rule P A C R1 R2 e p draft)) (unprotect_fits P e p C0)). Qed.
Print Assumptions C83_import_storage_keys_partial.

Example C83_import_storage_keys_case : performed [buf_cells h_storage; buf_cells h_pass]
  (h_ctx_import_storage_keys toy (Some h_storage) (Some h_pass) []).
Proof. by_running. Qed.

Theorem C84_import_storage_keys_partial
  (P : prims) (A : aead_len_ok P) (C : ctr_ok P) (R1 : scrypt_ok P) (R2 : hkdf_ok P) e p draft :
  performs_in_memory sk_cells sk_value [oc buf_cells e; oc buf_cells p]
    (ctx_import_storage_keys P (option_map b_bytes e) (option_map b_bytes p))
    (unprotect_public P (of_message pb_storage_keys_unpack storage_keys_fields no_bytes) (option_map b_bytes e) (option_map b_bytes p))
    (unprotect_exposed P (option_map b_bytes e) (option_map b_bytes p))
    [T_cipher_result; T_cipher_key]
    (unprotect_leak P (option_map b_bytes e) (option_map b_bytes p))
    (h_ctx_import_storage_keys P e p draft).
Proof. exact (op_sound _ _ _ _ _ _ _ _ _ (import_storage_keys_rule P A C R1 R2 e p draft)). Qed.
Print Assumptions C84_import_storage_keys_partial.

Theorem C85_import_storage_keys_partial
  (P : prims) (A : aead_len_ok P) (C : ctr_ok P) (R1 : scrypt_ok P) (R2 : hkdf_ok P) e p draft :
  hides_op [oc buf_cells e; oc buf_cells p]
    ((unprotect_public P (of_message pb_storage_keys_unpack storage_keys_fields no_bytes) (option_map b_bytes e) (option_map b_bytes p)) ++ (unprotect_exposed P (option_map b_bytes e) (option_map b_bytes p)))
    (h_ctx_import_storage_keys P e p draft).
Proof. exact (op_hides _ _ _ _ _ _ _ _ _ (import_storage_keys_rule P A C R1 R2 e p draft)). Qed.
Print Assumptions C85_import_storage_keys_partial.

(* --- export_root_keys *)
Theorem C83_export_root_keys
  (P : prims) (R : rand_ok P) (A : aead_ok P) (C : ctr_ok P) x k s :
  performs_cleanly cr_cells cr_value [oc rk_cells x; oc ck_cells k]
    (fst (root_keys_export P (option_map rk_value x) (option_map ck_value k) s))
    (nonce_of P (option_map ck_value k) s)
    (h_root_keys_export P x k s).
Proof. exact (op_clean _ _ _ _ _ _ _ _ _ (op_sound _ _ _ _ _ _ _ _ _ (root_keys_export_rule P R A C x k s)) (fun X => X)). Qed.
Print Assumptions C83_export_root_keys.

Example C83_export_root_keys_case : performed [rk_cells h_root; ck_cells h_other_key]
  (h_root_keys_export toy (Some h_root) (Some h_other_key) 6).
Proof. by_running. Qed.

Theorem C84_export_root_keys_partial
  (P : prims) (R : rand_ok P) (A : aead_ok P) (C : ctr_ok P) x k s :
  performs_in_memory cr_cells cr_value [oc rk_cells x; oc ck_cells k]
    (fst (root_keys_export P (option_map rk_value x) (option_map ck_value k) s))
    (nonce_of P (option_map ck_value k) s)
    []
    (encrypt_untested None)
    never_leaks_op
    (h_root_keys_export P x k s).
Proof. exact (op_sound _ _ _ _ _ _ _ _ _ (root_keys_export_rule P R A C x k s)). Qed.
Print Assumptions C84_export_root_keys_partial.

Theorem C85_export_root_keys
  (P : prims) (R : rand_ok P) (A : aead_ok P) (C : ctr_ok P) x k s :
  hides_op [oc rk_cells x; oc ck_cells k]
    ((nonce_of P (option_map ck_value k) s) ++ [])
    (h_root_keys_export P x k s).
Proof. exact (op_hides _ _ _ _ _ _ _ _ _ (root_keys_export_rule P R A C x k s)). Qed.
Print Assumptions C85_export_root_keys.

(* --- make_recovery *)
Theorem C83_make_recovery
  (P : prims) (R : rand_ok P) (A : aead_ok P) (C : ctr_ok P) g s :
  performs_cleanly buf_cells b_bytes [oc gr_cells g]
    (fst (make_recovery P (option_map gr_value g) s))
    (making_public P (option_map gr_value g) s)
    (h_make_recovery P g s).
Proof. exact (op_clean _ _ _ _ _ _ _ _ _ (op_sound _ _ _ _ _ _ _ _ _ (make_recovery_rule P R A C g s)) (fun X => X)). Qed.
Print Assumptions C83_make_recovery.

Example C83_make_recovery_case : performed [gr_cells h_gen]
  (h_make_recovery toy (Some h_gen) 6).
Proof. by_running. Qed.

Theorem C84_make_recovery_partial
  (P : prims) (R : rand_ok P) (A : aead_ok P) (C : ctr_ok P) g s :
  performs_in_memory buf_cells b_bytes [oc gr_cells g]
    (fst (make_recovery P (option_map gr_value g) s))
    (making_public P (option_map gr_value g) s)
    []
    (encrypt_untested None)
    never_leaks_op
    (h_make_recovery P g s).
Proof. exact (op_sound _ _ _ _ _ _ _ _ _ (make_recovery_rule P R A C g s)). Qed.
Print Assumptions C84_make_recovery_partial.

Theorem C85_make_recovery
  (P : prims) (R : rand_ok P) (A : aead_ok P) (C : ctr_ok P) g s :
  hides_op [oc gr_cells g]
    ((making_public P (option_map gr_value g) s) ++ [])
    (h_make_recovery P g s).
Proof. exact (op_hides _ _ _ _ _ _ _ _ _ (make_recovery_rule P R A C g s)). Qed.
Print Assumptions C85_make_recovery.

(* --- import_recovery *)
Theorem C83_import_recovery
  (P : prims) (A : aead_len_ok P) (C : ctr_ok P) d k draft :
  performs_cleanly rk_cells rk_value [oc buf_cells d; oc ck_cells k]
    (ctx_gen_import_recovery P (option_map b_bytes d) (option_map ck_value k))
    (recovery_public P (option_map b_bytes d) (option_map ck_value k))
    (h_ctx_gen_import_recovery P d k draft).
Proof. exact (op_clean _ _ _ _ _ _ _ _ _ (op_sound _ _ _ _ _ _ _ _ _ (import_recovery_rule P A C d k draft)) never_fails). Qed.
Print Assumptions C83_import_recovery.

Example C83_import_recovery_case : performed [buf_cells h_recovery; ck_cells h_other_key]
  (h_ctx_gen_import_recovery toy (Some h_recovery) (Some h_other_key) []).
Proof. by_running. Qed.

Theorem C84_import_recovery_partial
  (P : prims) (A : aead_len_ok P) (C : ctr_ok P) d k draft :
  performs_in_memory rk_cells rk_value [oc buf_cells d; oc ck_cells k]
    (ctx_gen_import_recovery P (option_map b_bytes d) (option_map ck_value k))
    (recovery_public P (option_map b_bytes d) (option_map ck_value k))
    []
    [T_cipher_result; T_ec_key; T_cipher_key]
    some_failure
    (h_ctx_gen_import_recovery P d k draft).
Proof. exact (op_sound _ _ _ _ _ _ _ _ _ (import_recovery_rule P A C d k draft)). Qed.
Print Assumptions C84_import_recovery_partial.

Theorem C85_import_recovery_partial
  (P : prims) (A : aead_len_ok P) (C : ctr_ok P) d k draft :
  hides_op [oc buf_cells d; oc ck_cells k]
    ((recovery_public P (option_map b_bytes d) (option_map ck_value k)) ++ [])
    (h_ctx_gen_import_recovery P d k draft).
Proof. exact (op_hides _ _ _ _ _ _ _ _ _ (import_recovery_rule P A C d k draft)). Qed.
Print Assumptions C85_import_recovery_partial.

(* --- the conditions of the theorems hold of the cases above *)
Example C83_laws : rand_ok toy /\ aead_ok toy /\ aead_len_ok toy /\ ctr_ok toy /\ sha_ok toy /\ hkdf_ok toy /\ sign_ok toy /\ scrypt_ok toy.
Proof. exact (conj toy_rand (conj toy_aead (conj toy_aead_len (conj toy_ctr (conj toy_sha (conj toy_hkdf (conj toy_sign toy_scrypt))))))). Qed.
Example C83_agreement_condition : if_set made_kdf_meta (option_map km_value (Some h_params)).
Proof. exact made_params. Qed.
Example C83_exchange_condition : if_set made_ec_key (option_map key_value (Some h_exchange_key)).
Proof. exact made_exchange_key. Qed.
Example C83_derive_condition : receiver_made (option_map nd_value (Some h_node)).
Proof. exact made_receiver. Qed.
Example C83_decode_condition : if_set made_ec_key (option_map key_value (Some h_private)).
Proof. exact made_private. Qed.
Example C83_find_condition : if_set (fun s => Forall (if_set made_key_exchange) (xs_items s)) (option_map xs_value (Some h_set)).
Proof. exact made_set. Qed.
Example C83_read_condition : if_set made_chain (option_map ch_value (Some h_sender)) /\ forall x, Some h_wire = Some x -> ~ odd_signature (b_bytes x).
Proof. exact (conj made_sender even_wire). Qed.
Example C83_sign_condition : forall x q, Some h_signing_key = Some x -> hkey_pri x = Some q -> p_d2i toy (b_bytes q) <> None.
Proof. exact signing_condition. Qed.
Example C83_import_condition : forall x y, Some h_recovery_key = Some x \/ Some h_storage = Some x -> Some h_pass = Some y ->
  ~ not_a_ciphertext toy (b_bytes x) (b_bytes y) /\
  forall m, kdf_meta_create_with_buffer (Some (b_bytes x)) = Val m -> ~ empty_bcrypt (km_algo m) (b_bytes y).
Proof. exact import_condition. Qed.

(* --- what goes wrong *)
Theorem C83_import_recovery_key_refuted :
  op_leaves [buf_cells stray0; buf_cells aad0] never None derived0 (h_import_recovery_key_passphrase toy (Some stray0) (Some aad0) []).
Proof. exact C83_import_recovery_key_refuted_ok. Qed.
Print Assumptions C83_import_recovery_key_refuted.

Theorem C83_import_storage_keys_refuted :
  op_leaves [buf_cells stray0; buf_cells aad0] never None derived0 (h_ctx_import_storage_keys toy (Some stray0) (Some aad0) []).
Proof. exact C83_import_storage_keys_refuted_ok. Qed.
Print Assumptions C83_import_storage_keys_refuted.

Theorem C83_packet_sign_refuted :
  op_leaves [cr_cells h_header; cr_cells h_sealed; key_cells broken0] never None [] (h_packet_create_with_components toy (Some h_header) (Some h_sealed) (Some broken0) 4 3).
Proof. exact C83_packet_sign_refuted_ok. Qed.
Print Assumptions C83_packet_sign_refuted.

Theorem C83_ctx_read_refuted :
  op_leaves [buf_cells h_odd; buf_cells h_node_id; ch_cells h_sender] never None (es_sig (pt_signature v_odd)) (h_ctx_read_packet toy (Some h_odd) (Some h_node_id) (Some h_sender) []).
Proof. exact C83_ctx_read_refuted_ok. Qed.
Print Assumptions C83_ctx_read_refuted.

Theorem C83_ctx_parse_refuted :
  op_leaves [cx_cells h_ctx; buf_cells h_odd; ch_cells h_sender] never None (es_sig (pt_signature v_odd)) (h_ctx_parse_packet toy (Some h_ctx) (Some h_odd) (Some h_sender) []).
Proof. exact C83_ctx_parse_refuted_ok. Qed.
Print Assumptions C83_ctx_parse_refuted.

Theorem C84_agreement_create_refuted :
  op_crashes []
    (h_ecdh_ctx_create toy P521 AES256_GCM 0).
Proof. exact C84_agreement_create_refuted_ok. Qed.
Print Assumptions C84_agreement_create_refuted.

Theorem C84_agreement_key_refuted :
  op_crashes [ex_cells h_agreement; key_cells h_private; km_cells h_params]
    (h_ecdh_gen_cipher_key toy h_agreement (Some h_private) (Some h_params)).
Proof. exact C84_agreement_key_refuted_ok. Qed.
Print Assumptions C84_agreement_key_refuted.

Theorem C84_agreement_encrypt_refuted :
  op_crashes [ex_cells h_agreement; buf_cells h_data; key_cells h_private; km_cells h_params]
    (h_ecdh_cipher toy h_agreement (Some h_data) (Some h_private) (Some h_params) 9).
Proof. exact C84_agreement_encrypt_refuted_ok. Qed.
Print Assumptions C84_agreement_encrypt_refuted.

Theorem C84_agreement_decrypt_refuted :
  op_crashes [ex_cells h_agreement; cr_cells h_agreed_text; key_cells h_private; km_cells h_params]
    (h_ecdh_decipher toy h_agreement (Some h_agreed_text) (Some h_private) (Some h_params) []).
Proof. exact C84_agreement_decrypt_refuted_ok. Qed.
Print Assumptions C84_agreement_decrypt_refuted.

Theorem C84_exchange_data_refuted :
  op_crashes [ch_cells h_sender; nd_cells h_node; key_cells h_exchange_key; buf_cells h_data; buf_cells h_psk]
    (h_exchange_create_with_data toy (Some h_sender) (Some h_node) (Some h_exchange_key) (Some h_data) AES256_GCM (Some h_psk) 4 0).
Proof. exact C84_exchange_data_refuted_ok. Qed.
Print Assumptions C84_exchange_data_refuted.

Theorem C84_exchange_key_refuted :
  op_crashes [ch_cells h_sender; nd_cells h_node; key_cells h_exchange_key; ck_cells h_packet_key; buf_cells h_psk]
    (h_exchange_create_with_packet_key toy (Some h_sender) (Some h_node) (Some h_exchange_key) (Some h_packet_key) (Some h_psk) 4 0).
Proof. exact C84_exchange_key_refuted_ok. Qed.
Print Assumptions C84_exchange_key_refuted.

Theorem C84_derive_data_refuted :
  op_crashes [ch_cells h_sender; nd_cells h_node; key_cells h_public; kx_cells h_exchange]
    (h_exchange_derive_data toy (Some h_sender) (Some h_node) (Some h_public) (Some h_exchange) None 4 []).
Proof. exact C84_derive_data_refuted_ok. Qed.
Print Assumptions C84_derive_data_refuted.

Theorem C84_derive_key_refuted :
  op_crashes [ch_cells h_sender; nd_cells h_node; key_cells h_public; kx_cells h_exchange]
    (h_exchange_derive_packet_key toy (Some h_sender) (Some h_node) (Some h_public) (Some h_exchange) None 4 []).
Proof. exact C84_derive_key_refuted_ok. Qed.
Print Assumptions C84_derive_key_refuted.

Theorem C84_header_encrypt_refuted :
  op_crashes [xs_cells h_set; ck_cells h_header_key]
    (h_exchange_set_encrypt toy (Some h_set) (Some h_header_key) 1).
Proof. exact C84_header_encrypt_refuted_ok. Qed.
Print Assumptions C84_header_encrypt_refuted.

Theorem C84_header_decrypt_refuted :
  op_crashes [cr_cells h_header; ck_cells h_header_key]
    (h_exchange_set_create_from_cipher toy (Some h_header) (Some h_header_key) []).
Proof. exact C84_header_decrypt_refuted_ok. Qed.
Print Assumptions C84_header_decrypt_refuted.

Theorem C84_exchange_find_refuted :
  op_crashes [xs_cells h_set; buf_cells h_node_id]
    (h_exchange_set_find (Some h_set) (Some h_node_id)).
Proof. exact C84_exchange_find_refuted_ok. Qed.
Print Assumptions C84_exchange_find_refuted.

Theorem C84_payload_encrypt_refuted :
  op_crashes [py_cells h_payload; ck_cells h_packet_key]
    (h_payload_encrypt toy (Some h_payload) (Some h_packet_key) 2).
Proof. exact C84_payload_encrypt_refuted_ok. Qed.
Print Assumptions C84_payload_encrypt_refuted.

Theorem C84_payload_decrypt_refuted :
  op_crashes [cr_cells h_sealed; ck_cells h_packet_key]
    (h_payload_create_from_cipher toy (Some h_sealed) (Some h_packet_key) []).
Proof. exact C84_payload_decrypt_refuted_ok. Qed.
Print Assumptions C84_payload_decrypt_refuted.

Theorem C84_packet_sign_refuted :
  op_crashes [cr_cells h_header; cr_cells h_sealed; key_cells h_signing_key]
    (h_packet_create_with_components toy (Some h_header) (Some h_sealed) (Some h_signing_key) 4 3).
Proof. exact C84_packet_sign_refuted_ok. Qed.
Print Assumptions C84_packet_sign_refuted.

Theorem C84_packet_read_refuted :
  op_crashes [pt_cells h_packet; buf_cells h_node_id; ch_cells h_sender]
    (h_parse_result_from_packet toy (Some h_packet) (Some h_node_id) (Some h_sender) []).
Proof. exact C84_packet_read_refuted_ok. Qed.
Print Assumptions C84_packet_read_refuted.

Theorem C84_ctx_read_refuted :
  op_crashes [buf_cells h_wire; buf_cells h_node_id; ch_cells h_sender]
    (h_ctx_read_packet toy (Some h_wire) (Some h_node_id) (Some h_sender) []).
Proof. exact C84_ctx_read_refuted_ok. Qed.
Print Assumptions C84_ctx_read_refuted.

Theorem C84_ctx_parse_refuted :
  op_crashes [cx_cells h_ctx; buf_cells h_wire; ch_cells h_sender]
    (h_ctx_parse_packet toy (Some h_ctx) (Some h_wire) (Some h_sender) []).
Proof. exact C84_ctx_parse_refuted_ok. Qed.
Print Assumptions C84_ctx_parse_refuted.

Theorem C84_ctx_parse_no_decode_refuted :
  op_crashes [cx_cells h_ctx; buf_cells h_wire; ch_cells h_sender]
    (h_ctx_parse_packet_no_decode toy (Some h_ctx) (Some h_wire) (Some h_sender) []).
Proof. exact C84_ctx_parse_no_decode_refuted_ok. Qed.
Print Assumptions C84_ctx_parse_no_decode_refuted.

Theorem C84_packet_decode_refuted :
  op_crashes [pt_cells h_packet; pa_cells h_parse; buf_cells (hnd_dev_id h_node); key_cells h_private; ch_cells (hnd_chain h_node); ch_cells h_sender]
    (h_decode_result_from_parse_result toy h_packet (Some h_parse) (hnd_dev_id h_node) (Some h_private) (hnd_chain h_node) (Some h_sender) [] []).
Proof. exact C84_packet_decode_refuted_ok. Qed.
Print Assumptions C84_packet_decode_refuted.

Theorem C84_ctx_decode_refuted :
  op_crashes [cx_cells h_ctx; cp_cells h_received; key_cells h_private]
    (h_ctx_decode_packet toy (Some h_ctx) (Some h_received) (Some h_private) [] []).
Proof. exact C84_ctx_decode_refuted_ok. Qed.
Print Assumptions C84_ctx_decode_refuted.

Theorem C84_cipher_local_refuted :
  op_crashes [cx_cells h_ctx; buf_cells h_data]
    (h_ctx_cipher_local toy (Some h_ctx) (Some h_data) 7).
Proof. exact C84_cipher_local_refuted_ok. Qed.
Print Assumptions C84_cipher_local_refuted.

Theorem C84_cipher_remote_refuted :
  op_crashes [cx_cells h_ctx; buf_cells h_data]
    (h_ctx_cipher_remote toy (Some h_ctx) (Some h_data) 8).
Proof. exact C84_cipher_remote_refuted_ok. Qed.
Print Assumptions C84_cipher_remote_refuted.

Theorem C84_export_recovery_key_refuted :
  op_crashes [gr_cells h_gen; buf_cells h_pass]
    (h_export_recovery_key_passphrase toy (Some h_gen) (Some h_pass) 4).
Proof. exact C84_export_recovery_key_refuted_ok. Qed.
Print Assumptions C84_export_recovery_key_refuted.

Theorem C84_import_recovery_key_refuted :
  op_crashes [buf_cells h_recovery_key; buf_cells h_pass]
    (h_import_recovery_key_passphrase toy (Some h_recovery_key) (Some h_pass) []).
Proof. exact C84_import_recovery_key_refuted_ok. Qed.
Print Assumptions C84_import_recovery_key_refuted.

Theorem C84_export_storage_keys_refuted :
  op_crashes [cx_cells h_ctx; buf_cells h_pass]
    (h_ctx_export_storage_keys toy (Some h_ctx) (Some h_pass) 5).
Proof. exact C84_export_storage_keys_refuted_ok. Qed.
Print Assumptions C84_export_storage_keys_refuted.

Theorem C84_import_storage_keys_refuted :
  op_crashes [buf_cells h_storage; buf_cells h_pass]
    (h_ctx_import_storage_keys toy (Some h_storage) (Some h_pass) []).
Proof. exact C84_import_storage_keys_refuted_ok. Qed.
Print Assumptions C84_import_storage_keys_refuted.

Theorem C84_export_root_keys_refuted :
  op_crashes [rk_cells h_root; ck_cells h_other_key]
    (h_root_keys_export toy (Some h_root) (Some h_other_key) 6).
Proof. exact C84_export_root_keys_refuted_ok. Qed.
Print Assumptions C84_export_root_keys_refuted.

Theorem C84_make_recovery_refuted :
  op_crashes [gr_cells h_gen]
    (h_make_recovery toy (Some h_gen) 6).
Proof. exact C84_make_recovery_refuted_ok. Qed.
Print Assumptions C84_make_recovery_refuted.

Theorem C84_import_recovery_refuted :
  op_crashes [buf_cells h_recovery; ck_cells h_other_key]
    (h_ctx_gen_import_recovery toy (Some h_recovery) (Some h_other_key) []).
Proof. exact C84_import_recovery_refuted_ok. Qed.
Print Assumptions C84_import_recovery_refuted.

Theorem C84_agreement_key_leaks_refuted :
  exists fails, op_leaves [ex_cells h_agreement; key_cells h_private; km_cells h_params] fails None v_agreed
    (h_ecdh_gen_cipher_key toy h_agreement (Some h_private) (Some h_params)).
Proof. exact C84_agreement_key_leaks_refuted_ok. Qed.
Print Assumptions C84_agreement_key_leaks_refuted.

Theorem C84_exchange_data_leaks_refuted :
  exists fails, op_leaves [ch_cells h_sender; nd_cells h_node; key_cells h_exchange_key; buf_cells h_data; buf_cells h_psk] fails None (b_bytes h_psk)
    (h_exchange_create_with_data toy (Some h_sender) (Some h_node) (Some h_exchange_key) (Some h_data) AES256_GCM (Some h_psk) 4 0).
Proof. exact C84_exchange_data_leaks_refuted_ok. Qed.
Print Assumptions C84_exchange_data_leaks_refuted.

Theorem C84_derive_data_leaks_refuted :
  exists fails, op_leaves [ch_cells h_sender; nd_cells h_node; key_cells h_public; kx_cells h_exchange; buf_cells h_psk] fails None (b_bytes h_psk)
    (h_exchange_derive_data toy (Some h_sender) (Some h_node) (Some h_public) (Some h_exchange) (Some h_psk) 4 []).
Proof. exact C84_derive_data_leaks_refuted_ok. Qed.
Print Assumptions C84_derive_data_leaks_refuted.

Theorem C85_agreement_key_refuted :
  exists fails, op_exposes [ex_cells h_agreement; key_cells h_private; km_cells h_params] fails v_agreed
    (h_ecdh_gen_cipher_key toy h_agreement (Some h_private) (Some h_params)).
Proof. exact C85_agreement_key_refuted_ok. Qed.
Print Assumptions C85_agreement_key_refuted.

Theorem C85_agreement_encrypt_refuted :
  exists fails, op_exposes [ex_cells h_agreement; buf_cells h_data; key_cells h_private; km_cells h_params] fails v_agreed
    (h_ecdh_cipher toy h_agreement (Some h_data) (Some h_private) (Some h_params) 9).
Proof. exact C85_agreement_encrypt_refuted_ok. Qed.
Print Assumptions C85_agreement_encrypt_refuted.

Theorem C85_agreement_decrypt_refuted :
  exists fails, op_exposes [ex_cells h_agreement; cr_cells h_agreed_text; key_cells h_private; km_cells h_params] fails v_agreed
    (h_ecdh_decipher toy h_agreement (Some h_agreed_text) (Some h_private) (Some h_params) []).
Proof. exact C85_agreement_decrypt_refuted_ok. Qed.
Print Assumptions C85_agreement_decrypt_refuted.

Theorem C85_exchange_data_refuted :
  exists fails, op_exposes [ch_cells h_sender; nd_cells h_node; key_cells h_exchange_key; buf_cells h_data; buf_cells h_psk] fails (b_bytes h_psk)
    (h_exchange_create_with_data toy (Some h_sender) (Some h_node) (Some h_exchange_key) (Some h_data) AES256_GCM (Some h_psk) 4 0).
Proof. exact C85_exchange_data_refuted_ok. Qed.
Print Assumptions C85_exchange_data_refuted.

Theorem C85_exchange_key_refuted :
  exists fails, op_exposes [ch_cells h_sender; nd_cells h_node; key_cells h_exchange_key; ck_cells h_packet_key; buf_cells h_psk] fails (b_bytes h_psk)
    (h_exchange_create_with_packet_key toy (Some h_sender) (Some h_node) (Some h_exchange_key) (Some h_packet_key) (Some h_psk) 4 0).
Proof. exact C85_exchange_key_refuted_ok. Qed.
Print Assumptions C85_exchange_key_refuted.

Theorem C85_derive_data_refuted :
  exists fails, op_exposes [ch_cells h_sender; nd_cells h_node; key_cells h_public; kx_cells h_exchange; buf_cells h_psk] fails (b_bytes h_psk)
    (h_exchange_derive_data toy (Some h_sender) (Some h_node) (Some h_public) (Some h_exchange) (Some h_psk) 4 []).
Proof. exact C85_derive_data_refuted_ok. Qed.
Print Assumptions C85_derive_data_refuted.

Theorem C85_derive_key_refuted :
  exists fails, op_exposes [ch_cells h_sender; nd_cells h_node; key_cells h_public; kx_cells h_exchange; buf_cells h_psk] fails (b_bytes h_psk)
    (h_exchange_derive_packet_key toy (Some h_sender) (Some h_node) (Some h_public) (Some h_exchange) (Some h_psk) 4 []).
Proof. exact C85_derive_key_refuted_ok. Qed.
Print Assumptions C85_derive_key_refuted.

Theorem C85_payload_decrypt_refuted :
  op_exposes [cr_cells h_sealed; ck_cells h_packet_key] never (py_body v_payload)
    (h_payload_create_from_cipher toy (Some h_sealed) (Some h_packet_key) []).
Proof. exact C85_payload_decrypt_refuted_ok. Qed.
Print Assumptions C85_payload_decrypt_refuted.

Theorem C85_packet_decode_refuted :
  op_exposes [pt_cells h_packet; pa_cells h_parse; buf_cells (hnd_dev_id h_node); key_cells h_private; ch_cells (hnd_chain h_node); ch_cells h_sender] never (py_body v_payload)
    (h_decode_result_from_parse_result toy h_packet (Some h_parse) (hnd_dev_id h_node) (Some h_private) (hnd_chain h_node) (Some h_sender) [] []).
Proof. exact C85_packet_decode_refuted_ok. Qed.
Print Assumptions C85_packet_decode_refuted.

Theorem C85_ctx_decode_refuted :
  op_exposes [cx_cells h_ctx; cp_cells h_received; key_cells h_private] never (py_body v_payload)
    (h_ctx_decode_packet toy (Some h_ctx) (Some h_received) (Some h_private) [] []).
Proof. exact C85_ctx_decode_refuted_ok. Qed.
Print Assumptions C85_ctx_decode_refuted.

Theorem C85_export_storage_keys_refuted :
  op_exposes [cx_cells h_ctx; buf_cells h_pass] never (key_bytes v_key)
    (h_ctx_export_storage_keys toy (Some h_ctx) (Some h_pass) 5).
Proof. exact C85_export_storage_keys_refuted_ok. Qed.
Print Assumptions C85_export_storage_keys_refuted.

Theorem C85_import_storage_keys_refuted :
  op_exposes [buf_cells h_storage; buf_cells h_pass] never (key_bytes v_key)
    (h_ctx_import_storage_keys toy (Some h_storage) (Some h_pass) []).
Proof. exact C85_import_storage_keys_refuted_ok. Qed.
Print Assumptions C85_import_storage_keys_refuted.

Theorem C85_import_recovery_refuted :
  op_exposes [buf_cells h_recovery; ck_cells h_other_key] never (key_bytes v_key)
    (h_ctx_gen_import_recovery toy (Some h_recovery) (Some h_other_key) []).
Proof. exact C85_import_recovery_refuted_ok. Qed.
Print Assumptions C85_import_recovery_refuted.

Theorem C85_import_recovery_private_refuted :
  op_exposes [buf_cells h_recovery; ck_cells h_other_key] never (private_bytes v_exchange_key)
    (h_ctx_gen_import_recovery toy (Some h_recovery) (Some h_other_key) []).
Proof. exact C85_import_recovery_private_refuted_ok. Qed.
Print Assumptions C85_import_recovery_private_refuted.
