(* C86-C88: making keys, identities, devices and fingerprints, as operations on memory *)
From Verif.Base Require Import Bytes Monad.
From Verif.Model Require Import Buffer Cipher Ecdsa Kdf Prims Engine Keys Fingerprint Identity Node Stream Handshake Ctx Heap HeapObjects HeapMessages HeapParse HeapEngine HeapProtocol HeapGenerate.
From Verif.Spec Require Import HeapSpec HeapObjectSpec CopySpec HeapParseSpec HeapWriteSpec HeapEngineSpec HeapProtocolSpec HeapGenerateSpec.
From Verif.Proofs Require Import HeapFacts HeapObjectFacts HeapExamples HeapEngineFacts HeapKdfFacts HeapEngineExamples HeapProtocolFacts HeapExchangeFacts HeapPacketFacts HeapReadingFacts HeapDecodingFacts HeapProtocolExamples HeapGenerateFacts HeapGenerateExamples ToyPrims.
Local Open Scope N_scope.

(* --- identity_sign *)
Theorem C86_identity_sign_partial
  (P : prims) (R : sign_ok P) x data s
  (C0 : forall i q, x = Some i -> hkey_pri (hid_key i) = Some q -> p_d2i P (b_bytes q) <> None) :
  performs_cleanly sig_cells sig_value [oc id_cells x; oc buf_cells data]
    (fst (identity_sign P (option_map id_value x) (option_map b_bytes data) s))
    []
    (h_identity_sign P x data s).
Proof. exact (op_clean _ _ _ _ _ _ _ _ _ (op_sound _ _ _ _ _ _ _ _ _ (identity_sign_rule P R x data s)) (id_sign_fits P x C0)). Qed.
Print Assumptions C86_identity_sign_partial.

Example C86_identity_sign_case : performed [id_cells h_root_id; buf_cells h_data]
  (h_identity_sign toy (Some h_root_id) (Some h_data) 1).
Proof. by_running. Qed.

Theorem C87_identity_sign_partial
  (P : prims) (R : sign_ok P) x data s :
  performs_in_memory sig_cells sig_value [oc id_cells x; oc buf_cells data]
    (fst (identity_sign P (option_map id_value x) (option_map b_bytes data) s))
    []
    []
    [T_openssl; T_ecdsa_result]
    (sign_leak P (option_map hid_key x))
    (h_identity_sign P x data s).
Proof. exact (op_sound _ _ _ _ _ _ _ _ _ (identity_sign_rule P R x data s)). Qed.
Print Assumptions C87_identity_sign_partial.

Theorem C88_identity_sign
  (P : prims) (R : sign_ok P) x data s :
  hides_op [oc id_cells x; oc buf_cells data]
    ([] ++ [])
    (h_identity_sign P x data s).
Proof. exact (op_hides _ _ _ _ _ _ _ _ _ (identity_sign_rule P R x data s)). Qed.
Print Assumptions C88_identity_sign.

(* --- node_identity *)
Theorem C86_node_identity_partial
  (P : prims) (R : sign_ok P) (R1 : rand_ok P) r identifier s
  (C0 : forall i q, r = Some i -> hkey_pri (hid_key i) = Some q -> p_d2i P (b_bytes q) <> None) :
  performs_cleanly id_cells id_value [oc id_cells r; oc buf_cells identifier]
    (fst (node_identity_gen P (option_map id_value r) (option_map b_bytes identifier) s))
    (node_gen_public P (option_map id_value r) (option_map b_bytes identifier) s)
    (h_node_identity_gen P r identifier s).
Proof. exact (op_clean _ _ _ _ _ _ _ _ _ (op_sound _ _ _ _ _ _ _ _ _ (node_identity_gen_rule P R R1 r identifier s)) (id_sign_fits P r C0)). Qed.
Print Assumptions C86_node_identity_partial.

Example C86_node_identity_case : performed [id_cells h_root_id]
  (h_node_identity_gen toy (Some h_root_id) None 1).
Proof. by_running. Qed.

Theorem C87_node_identity_partial
  (P : prims) (R : sign_ok P) (R1 : rand_ok P) r identifier s :
  performs_in_memory id_cells id_value [oc id_cells r; oc buf_cells identifier]
    (fst (node_identity_gen P (option_map id_value r) (option_map b_bytes identifier) s))
    (node_gen_public P (option_map id_value r) (option_map b_bytes identifier) s)
    []
    (T_openssl :: T_ec_key :: T_ecdsa_result :: buffer_kinds)
    (sign_leak P (option_map hid_key r))
    (h_node_identity_gen P r identifier s).
Proof. exact (op_sound _ _ _ _ _ _ _ _ _ (node_identity_gen_rule P R R1 r identifier s)). Qed.
Print Assumptions C87_node_identity_partial.

Theorem C88_node_identity
  (P : prims) (R : sign_ok P) (R1 : rand_ok P) r identifier s :
  hides_op [oc id_cells r; oc buf_cells identifier]
    ((node_gen_public P (option_map id_value r) (option_map b_bytes identifier) s) ++ [])
    (h_node_identity_gen P r identifier s).
Proof. exact (op_hides _ _ _ _ _ _ _ _ _ (node_identity_gen_rule P R R1 r identifier s)). Qed.
Print Assumptions C88_node_identity.

(* --- keypair *)
Theorem C86_keypair_partial
  (P : prims) (R : sign_ok P) n x s
  (C0 : forall i q, x = Some i -> hkey_pri (hid_key i) = Some q -> p_d2i P (b_bytes q) <> None) :
  performs_cleanly kp_cells kp_value [oc id_cells x]
    (fst (keypair_generate_identity P n (option_map id_value x) s))
    []
    (h_keypair_generate_identity P n x s).
Proof. exact (op_clean _ _ _ _ _ _ _ _ _ (op_sound _ _ _ _ _ _ _ _ _ (keypair_generate_identity_rule P R n x s)) (id_sign_fits P x C0)). Qed.
Print Assumptions C86_keypair_partial.

Example C86_keypair_case : performed [id_cells h_root_id]
  (h_keypair_generate_identity toy 7 (Some h_root_id) 1).
Proof. by_running. Qed.

Theorem C87_keypair_partial
  (P : prims) (R : sign_ok P) n x s :
  performs_in_memory kp_cells kp_value [oc id_cells x]
    (fst (keypair_generate_identity P n (option_map id_value x) s))
    []
    (new_signature P (option_map id_value x) s)
    [T_openssl; T_ec_key; T_ecdsa_result]
    (sign_leak P (option_map hid_key x))
    (h_keypair_generate_identity P n x s).
Proof. exact (op_sound _ _ _ _ _ _ _ _ _ (keypair_generate_identity_rule P R n x s)). Qed.
Print Assumptions C87_keypair_partial.

Theorem C88_keypair
  (P : prims) (R : sign_ok P) n x s :
  hides_op [oc id_cells x]
    ([] ++ (new_signature P (option_map id_value x) s))
    (h_keypair_generate_identity P n x s).
Proof. exact (op_hides _ _ _ _ _ _ _ _ _ (keypair_generate_identity_rule P R n x s)). Qed.
Print Assumptions C88_keypair.

(* --- ctx_keypair *)
Theorem C86_ctx_keypair_partial
  (P : prims) (R : sign_ok P) c n s
  (C0 : forall i q, c = Some i -> hkey_pri (hid_key (hch_node (hcx_chain i))) = Some q -> p_d2i P (b_bytes q) <> None) :
  performs_cleanly kp_cells kp_value [oc cx_cells c]
    (fst (ctx_ephemeral_keypair_gen P (option_map cx_value c) n s))
    []
    (h_ctx_ephemeral_keypair_gen P c n s).
Proof. exact (op_clean _ _ _ _ _ _ _ _ _ (op_sound _ _ _ _ _ _ _ _ _ (ctx_ephemeral_keypair_gen_rule P R c n s)) (ctx_sign_fits P c C0)). Qed.
Print Assumptions C86_ctx_keypair_partial.

Example C86_ctx_keypair_case : performed [cx_cells h_ctx]
  (h_ctx_ephemeral_keypair_gen toy (Some h_ctx) 7 1).
Proof. by_running. Qed.

Theorem C87_ctx_keypair_partial
  (P : prims) (R : sign_ok P) c n s :
  performs_in_memory kp_cells kp_value [oc cx_cells c]
    (fst (ctx_ephemeral_keypair_gen P (option_map cx_value c) n s))
    []
    (new_signature P (option_map (fun x => ch_node (cx_chain x)) (option_map cx_value c)) s)
    [T_openssl; T_ec_key; T_ecdsa_result]
    (sign_leak P (option_map (fun x => hid_key (hch_node (hcx_chain x))) c))
    (h_ctx_ephemeral_keypair_gen P c n s).
Proof. exact (op_sound _ _ _ _ _ _ _ _ _ (ctx_ephemeral_keypair_gen_rule P R c n s)). Qed.
Print Assumptions C87_ctx_keypair_partial.

Theorem C88_ctx_keypair
  (P : prims) (R : sign_ok P) c n s :
  hides_op [oc cx_cells c]
    ([] ++ (new_signature P (option_map (fun x => ch_node (cx_chain x)) (option_map cx_value c)) s))
    (h_ctx_ephemeral_keypair_gen P c n s).
Proof. exact (op_hides _ _ _ _ _ _ _ _ _ (ctx_ephemeral_keypair_gen_rule P R c n s)). Qed.
Print Assumptions C88_ctx_keypair.

(* --- root_keys *)
Theorem C86_root_keys
  (P : prims) (R : rand_ok P) s :
  performs_cleanly rk_cells rk_value []
    (fst (root_keys_generate P s))
    []
    (h_root_keys_generate P s).
Proof. exact (op_clean _ _ _ _ _ _ _ _ _ (op_sound _ _ _ _ _ _ _ _ _ (root_keys_generate_rule P R s)) (fun X => X)). Qed.
Print Assumptions C86_root_keys.

Example C86_root_keys_case : performed []
  (h_root_keys_generate toy 1).
Proof. by_running. Qed.

Theorem C87_root_keys_partial
  (P : prims) (R : rand_ok P) s :
  performs_in_memory rk_cells rk_value []
    (fst (root_keys_generate P s))
    []
    []
    [T_buffer; T_data; T_cipher_key; T_openssl; T_ec_key]
    never_leaks_op
    (h_root_keys_generate P s).
Proof. exact (op_sound _ _ _ _ _ _ _ _ _ (root_keys_generate_rule P R s)). Qed.
Print Assumptions C87_root_keys_partial.

Theorem C88_root_keys
  (P : prims) (R : rand_ok P) s :
  hides_op []
    ([] ++ [])
    (h_root_keys_generate P s).
Proof. exact (op_hides _ _ _ _ _ _ _ _ _ (root_keys_generate_rule P R s)). Qed.
Print Assumptions C88_root_keys.

(* --- localize *)
Theorem C86_localize
  (P : prims) (R : sha_ok P) k i (MK : if_set made_root_keys (option_map rk_value k)) :
  performs_cleanly sk_cells sk_value [oc rk_cells k; oc di_cells i]
    (lift (root_keys_localize P (option_map rk_value k) (option_map di_value i)))
    []
    (h_root_keys_localize P k i).
Proof. exact (op_clean _ _ _ _ _ _ _ _ _ (op_sound _ _ _ _ _ _ _ _ _ (root_keys_localize_rule P R k i MK)) (fun X => X)). Qed.
Print Assumptions C86_localize.

Example C86_localize_case : performed [rk_cells h_root; di_cells (hcx_dev h_ctx)]
  (h_root_keys_localize toy (Some h_root) (Some (hcx_dev h_ctx))).
Proof. by_running. Qed.

Theorem C87_localize_partial
  (P : prims) (R : sha_ok P) k i (MK : if_set made_root_keys (option_map rk_value k)) :
  performs_in_memory sk_cells sk_value [oc rk_cells k; oc di_cells i]
    (lift (root_keys_localize P (option_map rk_value k) (option_map di_value i)))
    []
    []
    [T_buffer; T_data; T_cipher_key]
    never_leaks_op
    (h_root_keys_localize P k i).
Proof. exact (op_sound _ _ _ _ _ _ _ _ _ (root_keys_localize_rule P R k i MK)). Qed.
Print Assumptions C87_localize_partial.

Theorem C88_localize
  (P : prims) (R : sha_ok P) k i (MK : if_set made_root_keys (option_map rk_value k)) :
  hides_op [oc rk_cells k; oc di_cells i]
    ([] ++ [])
    (h_root_keys_localize P k i).
Proof. exact (op_hides _ _ _ _ _ _ _ _ _ (root_keys_localize_rule P R k i MK)). Qed.
Print Assumptions C88_localize.

(* --- dev_info *)
Theorem C86_dev_info
  (P : prims) (R : sha_ok P) (R1 : rand_ok P) i s :
  performs_cleanly di_cells di_value [oc buf_cells i]
    (fst (dev_info_create_new P (option_map b_bytes i) s))
    (dev_new_public P (option_map b_bytes i) s)
    (h_dev_info_create_new P i s).
Proof. exact (op_clean _ _ _ _ _ _ _ _ _ (op_sound _ _ _ _ _ _ _ _ _ (dev_info_create_new_rule P R R1 i s)) (fun X => X)). Qed.
Print Assumptions C86_dev_info.

Example C86_dev_info_case : performed [buf_cells h_system]
  (h_dev_info_create_new toy (Some h_system) 0).
Proof. by_running. Qed.

Theorem C87_dev_info_partial
  (P : prims) (R : sha_ok P) (R1 : rand_ok P) i s :
  performs_in_memory di_cells di_value [oc buf_cells i]
    (fst (dev_info_create_new P (option_map b_bytes i) s))
    (dev_new_public P (option_map b_bytes i) s)
    (dev_new_exposed P (option_map b_bytes i) s)
    buffer_kinds
    never_leaks_op
    (h_dev_info_create_new P i s).
Proof. exact (op_sound _ _ _ _ _ _ _ _ _ (dev_info_create_new_rule P R R1 i s)). Qed.
Print Assumptions C87_dev_info_partial.

Theorem C88_dev_info_partial
  (P : prims) (R : sha_ok P) (R1 : rand_ok P) i s :
  hides_op [oc buf_cells i]
    ((dev_new_public P (option_map b_bytes i) s) ++ (dev_new_exposed P (option_map b_bytes i) s))
    (h_dev_info_create_new P i s).
Proof. exact (op_hides _ _ _ _ _ _ _ _ _ (dev_info_create_new_rule P R R1 i s)). Qed.
Print Assumptions C88_dev_info_partial.

(* --- public_key *)
Theorem C86_public_key
  k :
  performs_cleanly buf_cells b_bytes [key_cells k]
    (ec_key_get_pubdata_fixed_len (Some (key_value k)))
    []
    (h_pubdata_fixed_len k).
Proof. exact (op_clean _ _ _ _ _ _ _ _ _ (op_sound _ _ _ _ _ _ _ _ _ (pubdata_rule k)) (fun X => X)). Qed.
Print Assumptions C86_public_key.

Example C86_public_key_case : performed [key_cells (hid_key h_root_id)]
  (h_pubdata_fixed_len (hid_key h_root_id)).
Proof. by_running. Qed.

Theorem C87_public_key
  k :
  performs_safely buf_cells b_bytes [key_cells k]
    (ec_key_get_pubdata_fixed_len (Some (key_value k)))
    [] (h_pubdata_fixed_len k).
Proof. exact (op_strict _ _ _ _ _ _ (op_sound _ _ _ _ _ _ _ _ _ (pubdata_rule k))). Qed.
Print Assumptions C87_public_key.

Theorem C88_public_key
  k :
  hides_op [key_cells k]
    ([] ++ [])
    (h_pubdata_fixed_len k).
Proof. exact (op_hides _ _ _ _ _ _ _ _ _ (pubdata_rule k)). Qed.
Print Assumptions C88_public_key.

(* --- fingerprint *)
Theorem C86_fingerprint
  (P : prims) (R : sha_ok P) key identifier t :
  performs_cleanly fp_cells fp_value [oc key_cells key; oc buf_cells identifier]
    (fingerprint_gen P (option_map key_value key) (option_map b_bytes identifier) t)
    (fingerprint_public P (option_map key_value key) (option_map b_bytes identifier))
    (h_fingerprint_gen P key identifier t).
Proof. exact (op_clean _ _ _ _ _ _ _ _ _ (op_sound _ _ _ _ _ _ _ _ _ (fingerprint_gen_rule P R key identifier t)) (fun X => X)). Qed.
Print Assumptions C86_fingerprint.

Example C86_fingerprint_case : performed [key_cells (hid_key h_root_id); buf_cells h_system]
  (h_fingerprint_gen toy (Some (hid_key h_root_id)) (Some h_system) FP_SHA512).
Proof. by_running. Qed.

Theorem C87_fingerprint_partial
  (P : prims) (R : sha_ok P) key identifier t :
  performs_in_memory fp_cells fp_value [oc key_cells key; oc buf_cells identifier]
    (fingerprint_gen P (option_map key_value key) (option_map b_bytes identifier) t)
    (fingerprint_public P (option_map key_value key) (option_map b_bytes identifier))
    []
    buffer_kinds
    never_leaks_op
    (h_fingerprint_gen P key identifier t).
Proof. exact (op_sound _ _ _ _ _ _ _ _ _ (fingerprint_gen_rule P R key identifier t)). Qed.
Print Assumptions C87_fingerprint_partial.

Theorem C88_fingerprint
  (P : prims) (R : sha_ok P) key identifier t :
  hides_op [oc key_cells key; oc buf_cells identifier]
    ((fingerprint_public P (option_map key_value key) (option_map b_bytes identifier)) ++ [])
    (h_fingerprint_gen P key identifier t).
Proof. exact (op_hides _ _ _ _ _ _ _ _ _ (fingerprint_gen_rule P R key identifier t)). Qed.
Print Assumptions C88_fingerprint.

(* --- fingerprint_pair *)
Theorem C86_fingerprint_pair
  (P : prims) (R : sha_ok P) f1 f2 t :
  performs_cleanly fp_cells fp_value [oc fp_cells f1; oc fp_cells f2]
    (lift (fingerprint_gen_bilateral P (option_map fp_value f1) (option_map fp_value f2) t))
    (combine_public P (option_map fp_value f1) (option_map fp_value f2))
    (h_fingerprint_gen_bilateral P f1 f2 t).
Proof. exact (op_clean _ _ _ _ _ _ _ _ _ (op_sound _ _ _ _ _ _ _ _ _ (gen_bilateral_rule P R f1 f2 t)) (fun X => X)). Qed.
Print Assumptions C86_fingerprint_pair.

Example C86_fingerprint_pair_case : performed [fp_cells h_local_fp; fp_cells h_remote_fp]
  (h_fingerprint_gen_bilateral toy (Some h_local_fp) (Some h_remote_fp) FP_SHA512).
Proof. by_running. Qed.

Theorem C87_fingerprint_pair_partial
  (P : prims) (R : sha_ok P) f1 f2 t :
  performs_in_memory fp_cells fp_value [oc fp_cells f1; oc fp_cells f2]
    (lift (fingerprint_gen_bilateral P (option_map fp_value f1) (option_map fp_value f2) t))
    (combine_public P (option_map fp_value f1) (option_map fp_value f2))
    []
    buffer_kinds
    never_leaks_op
    (h_fingerprint_gen_bilateral P f1 f2 t).
Proof. exact (op_sound _ _ _ _ _ _ _ _ _ (gen_bilateral_rule P R f1 f2 t)). Qed.
Print Assumptions C87_fingerprint_pair_partial.

Theorem C88_fingerprint_pair
  (P : prims) (R : sha_ok P) f1 f2 t :
  hides_op [oc fp_cells f1; oc fp_cells f2]
    ((combine_public P (option_map fp_value f1) (option_map fp_value f2)) ++ [])
    (h_fingerprint_gen_bilateral P f1 f2 t).
Proof. exact (op_hides _ _ _ _ _ _ _ _ _ (gen_bilateral_rule P R f1 f2 t)). Qed.
Print Assumptions C88_fingerprint_pair.

(* --- identity_fingerprint *)
Theorem C86_identity_fingerprint
  (P : prims) (R : sha_ok P) x :
  performs_cleanly fp_cells fp_value [oc id_cells x]
    (identity_get_fingerprint P (option_map id_value x))
    (id_fingerprint_public P (option_map id_value x))
    (h_identity_get_fingerprint P x).
Proof. exact (op_clean _ _ _ _ _ _ _ _ _ (op_sound _ _ _ _ _ _ _ _ _ (identity_fingerprint_rule P R x)) (fun X => X)). Qed.
Print Assumptions C86_identity_fingerprint.

Example C86_identity_fingerprint_case : performed [id_cells h_root_id]
  (h_identity_get_fingerprint toy (Some h_root_id)).
Proof. by_running. Qed.

Theorem C87_identity_fingerprint_partial
  (P : prims) (R : sha_ok P) x :
  performs_in_memory fp_cells fp_value [oc id_cells x]
    (identity_get_fingerprint P (option_map id_value x))
    (id_fingerprint_public P (option_map id_value x))
    []
    buffer_kinds
    never_leaks_op
    (h_identity_get_fingerprint P x).
Proof. exact (op_sound _ _ _ _ _ _ _ _ _ (identity_fingerprint_rule P R x)). Qed.
Print Assumptions C87_identity_fingerprint_partial.

Theorem C88_identity_fingerprint
  (P : prims) (R : sha_ok P) x :
  hides_op [oc id_cells x]
    ((id_fingerprint_public P (option_map id_value x)) ++ [])
    (h_identity_get_fingerprint P x).
Proof. exact (op_hides _ _ _ _ _ _ _ _ _ (identity_fingerprint_rule P R x)). Qed.
Print Assumptions C88_identity_fingerprint.

(* --- identity_fingerprint_pair *)
Theorem C86_identity_fingerprint_pair
  (P : prims) (R : sha_ok P) x y :
  performs_cleanly fp_cells fp_value [oc id_cells x; oc id_cells y]
    (identity_get_bilateral_fingerprint P (option_map id_value x) (option_map id_value y))
    (bilateral_public P (option_map id_value x) (option_map id_value y))
    (h_identity_get_bilateral_fingerprint P x y).
Proof. exact (op_clean _ _ _ _ _ _ _ _ _ (op_sound _ _ _ _ _ _ _ _ _ (bilateral_fingerprint_rule P R x y)) (fun X => X)). Qed.
Print Assumptions C86_identity_fingerprint_pair.

Example C86_identity_fingerprint_pair_case : performed [id_cells h_root_id; id_cells h_node_identity]
  (h_identity_get_bilateral_fingerprint toy (Some h_root_id) (Some h_node_identity)).
Proof. by_running. Qed.

Theorem C87_identity_fingerprint_pair_partial
  (P : prims) (R : sha_ok P) x y :
  performs_in_memory fp_cells fp_value [oc id_cells x; oc id_cells y]
    (identity_get_bilateral_fingerprint P (option_map id_value x) (option_map id_value y))
    (bilateral_public P (option_map id_value x) (option_map id_value y))
    []
    buffer_kinds
    never_leaks_op
    (h_identity_get_bilateral_fingerprint P x y).
Proof. exact (op_sound _ _ _ _ _ _ _ _ _ (bilateral_fingerprint_rule P R x y)). Qed.
Print Assumptions C87_identity_fingerprint_pair_partial.

Theorem C88_identity_fingerprint_pair
  (P : prims) (R : sha_ok P) x y :
  hides_op [oc id_cells x; oc id_cells y]
    ((bilateral_public P (option_map id_value x) (option_map id_value y)) ++ [])
    (h_identity_get_bilateral_fingerprint P x y).
Proof. exact (op_hides _ _ _ _ _ _ _ _ _ (bilateral_fingerprint_rule P R x y)). Qed.
Print Assumptions C88_identity_fingerprint_pair.

(* --- transport_key *)
Theorem C86_transport_key
  (P : prims) (R : rand_ok P) c send recv s :
  performs_cleanly tr_cells tr_value []
    (fst (root_key_create_random P c send recv s))
    []
    (h_root_key_create_random P c send recv s).
Proof. exact (op_clean _ _ _ _ _ _ _ _ _ (op_sound _ _ _ _ _ _ _ _ _ (root_key_random_rule P R c send recv s)) (fun X => X)). Qed.
Print Assumptions C86_transport_key.

Example C86_transport_key_case : performed []
  (h_root_key_create_random toy AES256_GCM 512 512 0).
Proof. by_running. Qed.

Theorem C87_transport_key_partial
  (P : prims) (R : rand_ok P) c send recv s :
  performs_in_memory tr_cells tr_value []
    (fst (root_key_create_random P c send recv s))
    []
    []
    buffer_kinds
    never_leaks_op
    (h_root_key_create_random P c send recv s).
Proof. exact (op_sound _ _ _ _ _ _ _ _ _ (root_key_random_rule P R c send recv s)). Qed.
Print Assumptions C87_transport_key_partial.

Theorem C88_transport_key
  (P : prims) (R : rand_ok P) c send recv s :
  hides_op []
    ([] ++ [])
    (h_root_key_create_random P c send recv s).
Proof. exact (op_hides _ _ _ _ _ _ _ _ _ (root_key_random_rule P R c send recv s)). Qed.
Print Assumptions C88_transport_key.

(* --- stream_key_derived *)
Theorem C86_stream_key_derived
  (P : prims) (R1 : scrypt_ok P) (R2 : hkdf_ok P) k salt i d (MX : real (b_bytes salt)) (MI : real (b_bytes i)) :
  performs_cleanly st_cells st_value [tr_cells k; buf_cells salt; buf_cells i]
    (root_key_to_stream_key P (tr_value k) (b_bytes salt) (b_bytes i) d)
    [b_bytes i]
    (h_root_key_to_stream_key P k salt i d).
Proof. exact (op_clean _ _ _ _ _ _ _ _ _ (op_sound _ _ _ _ _ _ _ _ _ (to_stream_key_rule P R1 R2 k salt i d MX MI)) never_fails). Qed.
Print Assumptions C86_stream_key_derived.

Example C86_stream_key_derived_case : performed [tr_cells h_transport; buf_cells h_salt; buf_cells h_stream_id]
  (h_root_key_to_stream_key toy h_transport h_salt h_stream_id ENCODE).
Proof. by_running. Qed.

Theorem C87_stream_key_derived_partial
  (P : prims) (R1 : scrypt_ok P) (R2 : hkdf_ok P) k salt i d (MX : real (b_bytes salt)) (MI : real (b_bytes i)) :
  performs_in_memory st_cells st_value [tr_cells k; buf_cells salt; buf_cells i]
    (root_key_to_stream_key P (tr_value k) (b_bytes salt) (b_bytes i) d)
    [b_bytes i]
    (to_stream_exposed P (tr_value k) (b_bytes salt) (b_bytes i))
    [T_cipher_key]
    some_failure
    (h_root_key_to_stream_key P k salt i d).
Proof. exact (op_sound _ _ _ _ _ _ _ _ _ (to_stream_key_rule P R1 R2 k salt i d MX MI)). Qed.
Print Assumptions C87_stream_key_derived_partial.

Theorem C88_stream_key_derived_partial
  (P : prims) (R1 : scrypt_ok P) (R2 : hkdf_ok P) k salt i d (MX : real (b_bytes salt)) (MI : real (b_bytes i)) :
  hides_op [tr_cells k; buf_cells salt; buf_cells i]
    ([b_bytes i] ++ (to_stream_exposed P (tr_value k) (b_bytes salt) (b_bytes i)))
    (h_root_key_to_stream_key P k salt i d).
Proof. exact (op_hides _ _ _ _ _ _ _ _ _ (to_stream_key_rule P R1 R2 k salt i d MX MI)). Qed.
Print Assumptions C88_stream_key_derived_partial.

(* --- stream_key *)
Theorem C86_stream_key
  (P : prims) (R : rand_ok P) c ppe s :
  performs_cleanly st_cells st_value []
    (fst (stream_key_create_rand P c ppe s))
    []
    (h_stream_key_create_rand P c ppe s).
Proof. exact (op_clean _ _ _ _ _ _ _ _ _ (op_sound _ _ _ _ _ _ _ _ _ (stream_key_rand_rule P R c ppe s)) (fun X => X)). Qed.
Print Assumptions C86_stream_key.

Example C86_stream_key_case : performed []
  (h_stream_key_create_rand toy AES256_GCM 512 1).
Proof. by_running. Qed.

Theorem C87_stream_key_partial
  (P : prims) (R : rand_ok P) c ppe s :
  performs_in_memory st_cells st_value []
    (fst (stream_key_create_rand P c ppe s))
    []
    []
    (T_cipher_key :: buffer_kinds)
    never_leaks_op
    (h_stream_key_create_rand P c ppe s).
Proof. exact (op_sound _ _ _ _ _ _ _ _ _ (stream_key_rand_rule P R c ppe s)). Qed.
Print Assumptions C87_stream_key_partial.

Theorem C88_stream_key
  (P : prims) (R : rand_ok P) c ppe s :
  hides_op []
    ([] ++ [])
    (h_stream_key_create_rand P c ppe s).
Proof. exact (op_hides _ _ _ _ _ _ _ _ _ (stream_key_rand_rule P R c ppe s)). Qed.
Print Assumptions C88_stream_key.

(* --- stream_iv *)
Theorem C86_stream_iv
  (P : prims) (R : rand_ok P) c s :
  performs_cleanly si_cells si_value []
    (fst (stream_iv_create P c s))
    []
    (h_stream_iv_create P c s).
Proof. exact (op_clean _ _ _ _ _ _ _ _ _ (op_sound _ _ _ _ _ _ _ _ _ (stream_iv_create_rule P R c s)) (fun X => X)). Qed.
Print Assumptions C86_stream_iv.

Example C86_stream_iv_case : performed []
  (h_stream_iv_create toy AES256_GCM 3).
Proof. by_running. Qed.

Theorem C87_stream_iv_partial
  (P : prims) (R : rand_ok P) c s :
  performs_in_memory si_cells si_value []
    (fst (stream_iv_create P c s))
    []
    (drawn P s (digest_size SHA512))
    buffer_kinds
    never_leaks_op
    (h_stream_iv_create P c s).
Proof. exact (op_sound _ _ _ _ _ _ _ _ _ (stream_iv_create_rule P R c s)). Qed.
Print Assumptions C87_stream_iv_partial.

Theorem C88_stream_iv_partial
  (P : prims) (R : rand_ok P) c s :
  hides_op []
    ([] ++ (drawn P s (digest_size SHA512)))
    (h_stream_iv_create P c s).
Proof. exact (op_hides _ _ _ _ _ _ _ _ _ (stream_iv_create_rule P R c s)). Qed.
Print Assumptions C88_stream_iv_partial.

(* --- the conditions of the theorems hold of the cases above *)
Example C86_laws : rand_ok toy /\ sha_ok toy /\ hkdf_ok toy /\ sign_ok toy /\ scrypt_ok toy.
Proof. exact (conj toy_rand (conj toy_sha (conj toy_hkdf (conj toy_sign toy_scrypt)))). Qed.
Example C86_identity_condition : forall i q, Some h_root_id = Some i -> hkey_pri (hid_key i) = Some q -> p_d2i toy (b_bytes q) <> None.
Proof. exact root_condition. Qed.
Example C86_ctx_condition : forall i q, Some h_ctx = Some i -> hkey_pri (hid_key (hch_node (hcx_chain i))) = Some q -> p_d2i toy (b_bytes q) <> None.
Proof. exact ctx_condition. Qed.
Example C86_localize_condition : if_set made_root_keys (option_map rk_value (Some h_root)).
Proof. exact made_h_root. Qed.
Example C86_stream_condition : real (b_bytes h_salt) /\ real (b_bytes h_stream_id).
Proof. exact real_stream. Qed.

(* --- what goes wrong *)
Theorem C86_identity_sign_refuted :
  op_leaves [id_cells h_broken_id; buf_cells h_data] never None [] (h_identity_sign toy (Some h_broken_id) (Some h_data) 1).
Proof. exact C86_identity_sign_refuted_ok. Qed.
Print Assumptions C86_identity_sign_refuted.

Theorem C86_node_identity_refuted :
  op_leaves [id_cells h_broken_id] never None [] (h_node_identity_gen toy (Some h_broken_id) None 1).
Proof. exact C86_node_identity_refuted_ok. Qed.
Print Assumptions C86_node_identity_refuted.

Theorem C86_keypair_refuted :
  op_leaves [id_cells h_broken_id] never None [] (h_keypair_generate_identity toy 7 (Some h_broken_id) 1).
Proof. exact C86_keypair_refuted_ok. Qed.
Print Assumptions C86_keypair_refuted.

Theorem C86_ctx_keypair_refuted :
  op_leaves [cx_cells h_broken_ctx] never None [] (h_ctx_ephemeral_keypair_gen toy (Some h_broken_ctx) 7 1).
Proof. exact C86_ctx_keypair_refuted_ok. Qed.
Print Assumptions C86_ctx_keypair_refuted.

Theorem C87_identity_sign_refuted :
  op_crashes [id_cells h_root_id; buf_cells h_data]
    (h_identity_sign toy (Some h_root_id) (Some h_data) 1).
Proof. exact C87_identity_sign_refuted_ok. Qed.
Print Assumptions C87_identity_sign_refuted.

Theorem C87_node_identity_refuted :
  op_crashes [id_cells h_root_id]
    (h_node_identity_gen toy (Some h_root_id) None 1).
Proof. exact C87_node_identity_refuted_ok. Qed.
Print Assumptions C87_node_identity_refuted.

Theorem C87_keypair_refuted :
  op_crashes [id_cells h_root_id]
    (h_keypair_generate_identity toy 7 (Some h_root_id) 1).
Proof. exact C87_keypair_refuted_ok. Qed.
Print Assumptions C87_keypair_refuted.

Theorem C87_ctx_keypair_refuted :
  op_crashes [cx_cells h_ctx]
    (h_ctx_ephemeral_keypair_gen toy (Some h_ctx) 7 1).
Proof. exact C87_ctx_keypair_refuted_ok. Qed.
Print Assumptions C87_ctx_keypair_refuted.

Theorem C87_root_keys_refuted :
  op_crashes []
    (h_root_keys_generate toy 1).
Proof. exact C87_root_keys_refuted_ok. Qed.
Print Assumptions C87_root_keys_refuted.

Theorem C87_localize_refuted :
  op_crashes [rk_cells h_root; di_cells (hcx_dev h_ctx)]
    (h_root_keys_localize toy (Some h_root) (Some (hcx_dev h_ctx))).
Proof. exact C87_localize_refuted_ok. Qed.
Print Assumptions C87_localize_refuted.

Theorem C87_dev_info_refuted :
  op_crashes [buf_cells h_system]
    (h_dev_info_create_new toy (Some h_system) 0).
Proof. exact C87_dev_info_refuted_ok. Qed.
Print Assumptions C87_dev_info_refuted.

Theorem C87_fingerprint_refuted :
  op_crashes [key_cells (hid_key h_root_id); buf_cells h_system]
    (h_fingerprint_gen toy (Some (hid_key h_root_id)) (Some h_system) FP_SHA512).
Proof. exact C87_fingerprint_refuted_ok. Qed.
Print Assumptions C87_fingerprint_refuted.

Theorem C87_fingerprint_pair_refuted :
  op_crashes [fp_cells h_local_fp; fp_cells h_remote_fp]
    (h_fingerprint_gen_bilateral toy (Some h_local_fp) (Some h_remote_fp) FP_SHA512).
Proof. exact C87_fingerprint_pair_refuted_ok. Qed.
Print Assumptions C87_fingerprint_pair_refuted.

Theorem C87_identity_fingerprint_refuted :
  op_crashes [id_cells h_root_id]
    (h_identity_get_fingerprint toy (Some h_root_id)).
Proof. exact C87_identity_fingerprint_refuted_ok. Qed.
Print Assumptions C87_identity_fingerprint_refuted.

Theorem C87_identity_fingerprint_pair_refuted :
  op_crashes [id_cells h_root_id; id_cells h_node_identity]
    (h_identity_get_bilateral_fingerprint toy (Some h_root_id) (Some h_node_identity)).
Proof. exact C87_identity_fingerprint_pair_refuted_ok. Qed.
Print Assumptions C87_identity_fingerprint_pair_refuted.

Theorem C87_transport_key_refuted :
  op_crashes []
    (h_root_key_create_random toy AES256_GCM 512 512 0).
Proof. exact C87_transport_key_refuted_ok. Qed.
Print Assumptions C87_transport_key_refuted.

Theorem C87_stream_key_derived_refuted :
  op_crashes [tr_cells h_transport; buf_cells h_salt; buf_cells h_stream_id]
    (h_root_key_to_stream_key toy h_transport h_salt h_stream_id ENCODE).
Proof. exact C87_stream_key_derived_refuted_ok. Qed.
Print Assumptions C87_stream_key_derived_refuted.

Theorem C87_stream_key_refuted :
  op_crashes []
    (h_stream_key_create_rand toy AES256_GCM 512 1).
Proof. exact C87_stream_key_refuted_ok. Qed.
Print Assumptions C87_stream_key_refuted.

Theorem C87_stream_iv_refuted :
  op_crashes []
    (h_stream_iv_create toy AES256_GCM 3).
Proof. exact C87_stream_iv_refuted_ok. Qed.
Print Assumptions C87_stream_iv_refuted.

Theorem C87_stream_key_derived_leaks_refuted :
  exists fails, op_leaves [tr_cells h_transport; buf_cells h_salt; buf_cells h_stream_id] fails None v_stream_bytes
    (h_root_key_to_stream_key toy h_transport h_salt h_stream_id ENCODE).
Proof. exact C87_stream_key_derived_leaks_refuted_ok. Qed.
Print Assumptions C87_stream_key_derived_leaks_refuted.

Theorem C88_stream_key_derived_refuted :
  exists fails, op_exposes [tr_cells h_transport; buf_cells h_salt; buf_cells h_stream_id] fails v_stream_bytes
    (h_root_key_to_stream_key toy h_transport h_salt h_stream_id ENCODE).
Proof. exact C88_stream_key_derived_refuted_ok. Qed.
Print Assumptions C88_stream_key_derived_refuted.

Theorem C88_stream_iv_refuted :
  exists fails, op_exposes [] fails v_seed
    (h_stream_iv_create toy AES256_GCM 3).
Proof. exact C88_stream_iv_refuted_ok. Qed.
Print Assumptions C88_stream_iv_refuted.

Theorem C88_dev_info_refuted :
  exists fails, op_exposes [buf_cells h_system] fails v_dev_salt
    (h_dev_info_create_new toy (Some h_system) 0).
Proof. exact C88_dev_info_refuted_ok. Qed.
Print Assumptions C88_dev_info_refuted.
