(* C89-C92: validating chains and nodes, and making contexts, as operations on memory *)
From Verif.Base Require Import Bytes Monad.
From Verif.Model Require Import Buffer Cipher Ecdsa Kdf Prims Engine Keys Fingerprint Identity Node Stream Handshake Ctx Proto Heap HeapObjects HeapMessages HeapParse HeapEngine HeapProtocol HeapGenerate HeapContext.
From Verif.Spec Require Import HeapSpec HeapObjectSpec CopySpec HeapParseSpec HeapWriteSpec HeapEngineSpec HeapProtocolSpec HeapGenerateSpec HeapContextSpec.
From Verif.Proofs Require Import HeapFacts HeapObjectFacts HeapExamples HeapEngineFacts HeapKdfFacts HeapEngineExamples HeapProtocolFacts HeapExchangeFacts HeapPacketFacts HeapReadingFacts HeapDecodingFacts HeapProtocolExamples HeapGenerateFacts HeapGenerateExamples HeapContextFacts HeapContextExamples ToyPrims.
Local Open Scope N_scope.

(* --- chain_validate *)
Theorem C89_chain_validate
  (P : prims) (R : sha_ok P) c :
  changes_cleanly [] (ch_cells c) chain_left
    (chain_after_ok P c)
    (chain_strings P (ch_value c))
    (h_chain_validate P c).
Proof. exact (change_clean _ _ _ _ _ _ _ _ _ _ (change_sound _ _ _ _ _ _ _ _ _ (chain_validate_rule P R c)) (fun X => X) (chain_after_never P _)). Qed.
Print Assumptions C89_chain_validate.

Example C89_chain_validate_case : changes_as [] (ch_cells h_chain) fst
  (h_chain_validate toy h_chain).
Proof. by_changing. Qed.

Theorem C90_chain_validate_partial
  (P : prims) (R : sha_ok P) c :
  changes_in_memory [] (ch_cells c) chain_left
    (chain_after P c)
    (chain_strings P (ch_value c))
    []
    (T_openssl :: buffer_kinds)
    never_leaks_op
    (h_chain_validate P c).
Proof. exact (change_sound _ _ _ _ _ _ _ _ _ (chain_validate_rule P R c)). Qed.
Print Assumptions C90_chain_validate_partial.

Theorem C91_chain_validate
  (P : prims) (R : sha_ok P) c :
  hides_change [] (ch_cells c)
    ((chain_strings P (ch_value c)) ++ [])
    (h_chain_validate P c).
Proof. exact (change_hides_all _ _ _ _ _ _ _ _ _ (change_sound _ _ _ _ _ _ _ _ _ (chain_validate_rule P R c))). Qed.
Print Assumptions C91_chain_validate.

(* --- node_verify *)
Theorem C89_node_verify
  (P : prims) (R : sha_ok P) n :
  changes_cleanly [] (nd_cells n) node_left
    (node_after_ok P n)
    (node_strings P (nd_value n))
    (h_node_verify_signature_chain P n).
Proof. exact (change_clean _ _ _ _ _ _ _ _ _ _ (change_sound _ _ _ _ _ _ _ _ _ (node_verify_rule P R n)) (fun X => X) (node_after_never P _)). Qed.
Print Assumptions C89_node_verify.

Example C89_node_verify_case : changes_as [] (nd_cells h_node) fst
  (h_node_verify_signature_chain toy h_node).
Proof. by_changing. Qed.

Theorem C90_node_verify_partial
  (P : prims) (R : sha_ok P) n :
  changes_in_memory [] (nd_cells n) node_left
    (node_after P n)
    (node_strings P (nd_value n))
    []
    (T_openssl :: buffer_kinds)
    never_leaks_op
    (h_node_verify_signature_chain P n).
Proof. exact (change_sound _ _ _ _ _ _ _ _ _ (node_verify_rule P R n)). Qed.
Print Assumptions C90_node_verify_partial.

Theorem C91_node_verify
  (P : prims) (R : sha_ok P) n :
  hides_change [] (nd_cells n)
    ((node_strings P (nd_value n)) ++ [])
    (h_node_verify_signature_chain P n).
Proof. exact (change_hides_all _ _ _ _ _ _ _ _ _ (change_sound _ _ _ _ _ _ _ _ _ (node_verify_rule P R n))). Qed.
Print Assumptions C91_node_verify.

(* --- ctx_create *)
Theorem C89_ctx_create
  (P : prims) (R : sha_ok P) i c k :
  changes_cleanly [] (di_cells i ++ ch_cells c ++ sk_cells k) (taken cx_cells (di_cells i ++ ch_cells c ++ sk_cells k))
    (makes_ok cx_value (lift (ctx_create P (Some (di_value i)) (Some (ch_value c)) (Some (sk_value k)))))
    []
    (h_ctx_create P (Some i) (Some c) (Some k)).
Proof. exact (change_clean _ _ _ _ _ _ _ _ _ _ (change_sound _ _ _ _ _ _ _ _ _ (ctx_create_rule P R i c k)) never_fails (makes_never _ _)). Qed.
Print Assumptions C89_ctx_create.

Example C89_ctx_create_case : changes_as [] (di_cells h_info ++ ch_cells h_chain ++ sk_cells h_storage_keys) made_some
  (h_ctx_create toy (Some h_info) (Some h_chain) (Some h_storage_keys)).
Proof. by_changing. Qed.

Theorem C90_ctx_create_partial
  (P : prims) (R : sha_ok P) i c k :
  changes_in_memory [] (di_cells i ++ ch_cells c ++ sk_cells k) (taken cx_cells (di_cells i ++ ch_cells c ++ sk_cells k))
    (makes cx_value (lift (ctx_create P (Some (di_value i)) (Some (ch_value c)) (Some (sk_value k)))))
    []
    []
    (T_cipher_key :: buffer_kinds)
    some_failure
    (h_ctx_create P (Some i) (Some c) (Some k)).
Proof. exact (change_sound _ _ _ _ _ _ _ _ _ (ctx_create_rule P R i c k)). Qed.
Print Assumptions C90_ctx_create_partial.

Theorem C91_ctx_create
  (P : prims) (R : sha_ok P) i c k :
  hides_change [] (di_cells i ++ ch_cells c ++ sk_cells k)
    ([] ++ [])
    (h_ctx_create P (Some i) (Some c) (Some k)).
Proof. exact (change_hides_all _ _ _ _ _ _ _ _ _ (change_sound _ _ _ _ _ _ _ _ _ (ctx_create_rule P R i c k))). Qed.
Print Assumptions C91_ctx_create.

(* --- ctx_parse *)
Theorem C89_ctx_parse
  (P : prims) (R : sha_ok P) i b :
  changes_cleanly [] (di_cells i) (taken cx_cells (di_cells i))
    (makes_ok cx_value (ctx_create_from_buffer P (Some (di_value i)) (Some b)))
    (ctx_bytes_public P b)
    (h_ctx_from_bytes P i b).
Proof. exact (change_clean _ _ _ _ _ _ _ _ _ _ (change_sound _ _ _ _ _ _ _ _ _ (ctx_from_bytes_rule P R i b)) never_fails (makes_never _ _)). Qed.
Print Assumptions C89_ctx_parse.

Example C89_ctx_parse_case : changes_as [] (di_cells h_info) made_some
  (h_ctx_from_bytes toy h_info v_context).
Proof. by_changing. Qed.

Theorem C90_ctx_parse_partial
  (P : prims) (R : sha_ok P) i b :
  changes_in_memory [] (di_cells i) (taken cx_cells (di_cells i))
    (makes cx_value (ctx_create_from_buffer P (Some (di_value i)) (Some b)))
    (ctx_bytes_public P b)
    []
    parse_kinds
    some_failure
    (h_ctx_from_bytes P i b).
Proof. exact (change_sound _ _ _ _ _ _ _ _ _ (ctx_from_bytes_rule P R i b)). Qed.
Print Assumptions C90_ctx_parse_partial.

Theorem C91_ctx_parse_partial
  (P : prims) (R : sha_ok P) i b :
  hides_change [] (di_cells i)
    ((ctx_bytes_public P b) ++ [])
    (h_ctx_from_bytes P i b).
Proof. exact (change_hides_all _ _ _ _ _ _ _ _ _ (change_sound _ _ _ _ _ _ _ _ _ (ctx_from_bytes_rule P R i b))). Qed.
Print Assumptions C91_ctx_parse_partial.

(* --- ctx_import *)
Theorem C89_ctx_import_partial
  (P : prims) (A : aead_len_ok P) (C : ctr_ok P) (S1 : scrypt_ok P) (S2 : hkdf_ok P) (R : sha_ok P) i e p draft
  (C0 : ~ not_a_ciphertext P (b_bytes e) (b_bytes p) /\ forall m, kdf_meta_create_with_buffer (Some (b_bytes e)) = Val m -> ~ empty_bcrypt (km_algo m) (b_bytes p)) :
  changes_cleanly [buf_cells e; buf_cells p] (di_cells i) (taken cx_cells (di_cells i))
    (makes_ok cx_value (ctx_import P (Some (di_value i)) (Some (b_bytes e)) (Some (b_bytes p))))
    (unprotect_public P (ctx_bytes_public P) (Some (b_bytes e)) (Some (b_bytes p)))
    (h_ctx_import P (Some i) (Some e) (Some p) draft).
Proof. exact (change_clean _ _ _ _ _ _ _ _ _ _ (change_sound _ _ _ _ _ _ _ _ _ (ctx_import_rule P A C S1 S2 R i e p draft)) (decipher_fits P _ _ (proj1 C0) (proj2 C0)) (makes_never _ _)). Qed.
Print Assumptions C89_ctx_import_partial.

Example C89_ctx_import_case : changes_as [buf_cells h_exported; buf_cells h_pass] (di_cells h_info) made_some
  (h_ctx_import toy (Some h_info) (Some h_exported) (Some h_pass) []).
Proof. by_changing. Qed.

Theorem C90_ctx_import_partial
  (P : prims) (A : aead_len_ok P) (C : ctr_ok P) (S1 : scrypt_ok P) (S2 : hkdf_ok P) (R : sha_ok P) i e p draft :
  changes_in_memory [buf_cells e; buf_cells p] (di_cells i) (taken cx_cells (di_cells i))
    (makes cx_value (ctx_import P (Some (di_value i)) (Some (b_bytes e)) (Some (b_bytes p))))
    (unprotect_public P (ctx_bytes_public P) (Some (b_bytes e)) (Some (b_bytes p)))
    (kdf_decipher_derived P (b_bytes e) (b_bytes p))
    (T_cipher_result :: parse_kinds)
    (kdf_decipher_leak P (b_bytes e) (b_bytes p))
    (h_ctx_import P (Some i) (Some e) (Some p) draft).
Proof. exact (change_sound _ _ _ _ _ _ _ _ _ (ctx_import_rule P A C S1 S2 R i e p draft)). Qed.
Print Assumptions C90_ctx_import_partial.

Theorem C91_ctx_import_partial
  (P : prims) (A : aead_len_ok P) (C : ctr_ok P) (S1 : scrypt_ok P) (S2 : hkdf_ok P) (R : sha_ok P) i e p draft :
  hides_change [buf_cells e; buf_cells p] (di_cells i)
    ((unprotect_public P (ctx_bytes_public P) (Some (b_bytes e)) (Some (b_bytes p))) ++ (kdf_decipher_derived P (b_bytes e) (b_bytes p)))
    (h_ctx_import P (Some i) (Some e) (Some p) draft).
Proof. exact (change_hides_all _ _ _ _ _ _ _ _ _ (change_sound _ _ _ _ _ _ _ _ _ (ctx_import_rule P A C S1 S2 R i e p draft))). Qed.
Print Assumptions C91_ctx_import_partial.

(* --- ctx_with_keys *)
Theorem C89_ctx_with_keys_partial
  (P : prims) (R : sign_ok P) (R1 : rand_ok P) (R2 : sha_ok P) i k id s (MK : made_root_keys (rk_value k)) (MI : made_dev_info (di_value i))
  (C0 : (forall q, ek_pri (rk_signature (rk_value k)) = Some q -> p_d2i P q <> None) /\ ~ new_chain_rejected P (rk_value k) (b_bytes id) s) :
  performs_cleanly gr_cells gr_value [di_cells i; rk_cells k; buf_cells id]
    (fst (ctx_gen_with_root_keys P (Some (di_value i)) (Some (rk_value k)) (Some (b_bytes id)) s))
    (gen_strings P (rk_value k) (b_bytes id) s)
    (h_ctx_gen_with_root_keys P (Some i) (Some k) (Some id) s).
Proof. exact (or_clean _ _ _ _ _ _ _ _ _ _ (gen_with_root_keys_rule P R R1 R2 i k id s MK MI) (gen_fits P _ _ _ (proj1 C0) (proj2 C0))). Qed.
Print Assumptions C89_ctx_with_keys_partial.

Example C89_ctx_with_keys_case : performed [di_cells h_info; rk_cells h_root; buf_cells h_identifier]
  (h_ctx_gen_with_root_keys toy (Some h_info) (Some h_root) (Some h_identifier) 1).
Proof. by_running. Qed.

Theorem C90_ctx_with_keys_partial
  (P : prims) (R : sign_ok P) (R1 : rand_ok P) (R2 : sha_ok P) i k id s (MK : made_root_keys (rk_value k)) (MI : made_dev_info (di_value i)) :
  performs_or_worse gr_cells gr_value [di_cells i; rk_cells k; buf_cells id]
    (fst (ctx_gen_with_root_keys P (Some (di_value i)) (Some (rk_value k)) (Some (b_bytes id)) s))
    (uncached_of (fst (ctx_gen_with_root_keys P (Some (di_value i)) (Some (rk_value k)) (Some (b_bytes id)) s)))
    (gen_strings P (rk_value k) (b_bytes id) s)
    []
    gen_kinds
    (gen_leak P (rk_value k) (b_bytes id) s)
    (h_ctx_gen_with_root_keys P (Some i) (Some k) (Some id) s).
Proof. exact (or_sound _ _ _ _ _ _ _ _ _ _ (gen_with_root_keys_rule P R R1 R2 i k id s MK MI)). Qed.
Print Assumptions C90_ctx_with_keys_partial.

Theorem C91_ctx_with_keys
  (P : prims) (R : sign_ok P) (R1 : rand_ok P) (R2 : sha_ok P) i k id s (MK : made_root_keys (rk_value k)) (MI : made_dev_info (di_value i)) :
  hides_op [di_cells i; rk_cells k; buf_cells id]
    ((gen_strings P (rk_value k) (b_bytes id) s) ++ [])
    (h_ctx_gen_with_root_keys P (Some i) (Some k) (Some id) s).
Proof. exact (or_hides _ _ _ _ _ _ _ _ _ _ (gen_with_root_keys_rule P R R1 R2 i k id s MK MI)). Qed.
Print Assumptions C91_ctx_with_keys.

(* --- ctx_new *)
Theorem C89_ctx_new
  (P : prims) (EO : ec_ok P) (GO : gen_ok P) (R : sign_ok P) (R1 : rand_ok P) (R2 : sha_ok P) i id s (MI : made_dev_info (di_value i)) :
  performs_cleanly gr_cells gr_value [di_cells i; buf_cells id]
    (fst (ctx_gen_new P (Some (di_value i)) (Some (b_bytes id)) s))
    (of_new_keys P s [] (fun k => gen_strings P k (b_bytes id) (3 + s)))
    (h_ctx_gen_new P (Some i) (Some id) s).
Proof. exact (or_clean _ _ _ _ _ _ _ _ _ _ (gen_new_rule P EO GO R R1 R2 i id s MI) never_fails). Qed.
Print Assumptions C89_ctx_new.

Example C89_ctx_new_case : performed [di_cells h_info; buf_cells h_identifier]
  (h_ctx_gen_new toy (Some h_info) (Some h_identifier) 1).
Proof. by_running. Qed.

Theorem C90_ctx_new_partial
  (P : prims) (EO : ec_ok P) (GO : gen_ok P) (R : sign_ok P) (R1 : rand_ok P) (R2 : sha_ok P) i id s (MI : made_dev_info (di_value i)) :
  performs_or_worse gr_cells gr_value [di_cells i; buf_cells id]
    (fst (ctx_gen_new P (Some (di_value i)) (Some (b_bytes id)) s))
    (uncached_of (fst (ctx_gen_new P (Some (di_value i)) (Some (b_bytes id)) s)))
    (of_new_keys P s [] (fun k => gen_strings P k (b_bytes id) (3 + s)))
    []
    gen_kinds
    some_failure
    (h_ctx_gen_new P (Some i) (Some id) s).
Proof. exact (or_sound _ _ _ _ _ _ _ _ _ _ (gen_new_rule P EO GO R R1 R2 i id s MI)). Qed.
Print Assumptions C90_ctx_new_partial.

Theorem C91_ctx_new
  (P : prims) (EO : ec_ok P) (GO : gen_ok P) (R : sign_ok P) (R1 : rand_ok P) (R2 : sha_ok P) i id s (MI : made_dev_info (di_value i)) :
  hides_op [di_cells i; buf_cells id]
    ((of_new_keys P s [] (fun k => gen_strings P k (b_bytes id) (3 + s))) ++ [])
    (h_ctx_gen_new P (Some i) (Some id) s).
Proof. exact (or_hides _ _ _ _ _ _ _ _ _ _ (gen_new_rule P EO GO R R1 R2 i id s MI)). Qed.
Print Assumptions C91_ctx_new.

(* --- ctx_with_sig_key *)
Theorem C89_ctx_with_sig_key_partial
  (P : prims) (EO : ec_ok P) (GO : gen_ok P) (R : sign_ok P) (R1 : rand_ok P) (R2 : sha_ok P) i sk id s (MI : made_dev_info (di_value i)) (MS : made_ec_key (key_value sk))
  (C0 : (forall q, ek_pri (key_value sk) = Some q -> p_d2i P q <> None) /\ forall k, fst (root_keys_generate P s) = Val k -> ~ new_chain_rejected P (with_sig k (Some (key_value sk))) (b_bytes id) (3 + s)) :
  performs_cleanly gr_cells gr_value [di_cells i; key_cells sk; buf_cells id]
    (fst (ctx_gen_new_with_sig_key P (Some (di_value i)) (Some (key_value sk)) (Some (b_bytes id)) s))
    (of_new_keys P s [] (fun k => gen_strings P (with_sig k (Some (key_value sk))) (b_bytes id) (3 + s)))
    (h_ctx_gen_new_with_sig_key P (Some i) (Some sk) (Some id) s).
Proof. exact (or_clean _ _ _ _ _ _ _ _ _ _ (gen_new_with_sig_key_rule P EO GO R R1 R2 i sk id s MI MS) (sig_fits P _ _ _ (proj1 C0) (proj2 C0))). Qed.
Print Assumptions C89_ctx_with_sig_key_partial.

Example C89_ctx_with_sig_key_case : performed [di_cells h_info; key_cells h_exchange_key; buf_cells h_identifier]
  (h_ctx_gen_new_with_sig_key toy (Some h_info) (Some h_exchange_key) (Some h_identifier) 1).
Proof. by_running. Qed.

Theorem C90_ctx_with_sig_key_partial
  (P : prims) (EO : ec_ok P) (GO : gen_ok P) (R : sign_ok P) (R1 : rand_ok P) (R2 : sha_ok P) i sk id s (MI : made_dev_info (di_value i)) (MS : made_ec_key (key_value sk)) :
  performs_or_worse gr_cells gr_value [di_cells i; key_cells sk; buf_cells id]
    (fst (ctx_gen_new_with_sig_key P (Some (di_value i)) (Some (key_value sk)) (Some (b_bytes id)) s))
    (uncached_of (fst (ctx_gen_new_with_sig_key P (Some (di_value i)) (Some (key_value sk)) (Some (b_bytes id)) s)))
    (of_new_keys P s [] (fun k => gen_strings P (with_sig k (Some (key_value sk))) (b_bytes id) (3 + s)))
    []
    gen_kinds
    (fun fails => of_new_keys P s (some_failure fails) (fun k => gen_leak P (with_sig k (Some (key_value sk))) (b_bytes id) (3 + s) fails))
    (h_ctx_gen_new_with_sig_key P (Some i) (Some sk) (Some id) s).
Proof. exact (or_sound _ _ _ _ _ _ _ _ _ _ (gen_new_with_sig_key_rule P EO GO R R1 R2 i sk id s MI MS)). Qed.
Print Assumptions C90_ctx_with_sig_key_partial.

Theorem C91_ctx_with_sig_key
  (P : prims) (EO : ec_ok P) (GO : gen_ok P) (R : sign_ok P) (R1 : rand_ok P) (R2 : sha_ok P) i sk id s (MI : made_dev_info (di_value i)) (MS : made_ec_key (key_value sk)) :
  hides_op [di_cells i; key_cells sk; buf_cells id]
    ((of_new_keys P s [] (fun k => gen_strings P (with_sig k (Some (key_value sk))) (b_bytes id) (3 + s))) ++ [])
    (h_ctx_gen_new_with_sig_key P (Some i) (Some sk) (Some id) s).
Proof. exact (or_hides _ _ _ _ _ _ _ _ _ _ (gen_new_with_sig_key_rule P EO GO R R1 R2 i sk id s MI MS)). Qed.
Print Assumptions C91_ctx_with_sig_key.

(* --- ctx_with_recovery *)
Theorem C89_ctx_with_recovery_partial
  (P : prims) (A : aead_len_ok P) (C : ctr_ok P) (EO : ec_ok P) (GO : gen_ok P) (R : sign_ok P) (R1 : rand_ok P) (R2 : sha_ok P) i d rk id s draft (MI : made_dev_info (di_value i)) (MR : made_cipher_key (ck_value rk)) :
  performs_cleanly gr_cells gr_value [di_cells i; buf_cells d; ck_cells rk; buf_cells id]
    (fst (ctx_gen_with_recovery P (Some (di_value i)) (Some (b_bytes d)) (Some (ck_value rk)) (Some (b_bytes id)) s))
    (recover_strings P (b_bytes d) (ck_value rk) (b_bytes id) s)
    (h_ctx_gen_with_recovery P (Some i) (Some d) (Some rk) (Some id) s draft).
Proof. exact (or_clean _ _ _ _ _ _ _ _ _ _ (gen_with_recovery_rule P A C EO GO R R1 R2 i d rk id s draft MI MR) never_fails). Qed.
Print Assumptions C89_ctx_with_recovery_partial.

Example C89_ctx_with_recovery_case : performed [di_cells h_info; buf_cells h_recovery; ck_cells h_other_key; buf_cells h_identifier]
  (h_ctx_gen_with_recovery toy (Some h_info) (Some h_recovery) (Some h_other_key) (Some h_identifier) 1 []).
Proof. by_running. Qed.

Theorem C90_ctx_with_recovery_partial
  (P : prims) (A : aead_len_ok P) (C : ctr_ok P) (EO : ec_ok P) (GO : gen_ok P) (R : sign_ok P) (R1 : rand_ok P) (R2 : sha_ok P) i d rk id s draft (MI : made_dev_info (di_value i)) (MR : made_cipher_key (ck_value rk)) :
  performs_or_worse gr_cells gr_value [di_cells i; buf_cells d; ck_cells rk; buf_cells id]
    (fst (ctx_gen_with_recovery P (Some (di_value i)) (Some (b_bytes d)) (Some (ck_value rk)) (Some (b_bytes id)) s))
    (uncached_of (fst (ctx_gen_with_recovery P (Some (di_value i)) (Some (b_bytes d)) (Some (ck_value rk)) (Some (b_bytes id)) s)))
    (recover_strings P (b_bytes d) (ck_value rk) (b_bytes id) s)
    []
    any_kind
    some_failure
    (h_ctx_gen_with_recovery P (Some i) (Some d) (Some rk) (Some id) s draft).
Proof. exact (or_sound _ _ _ _ _ _ _ _ _ _ (gen_with_recovery_rule P A C EO GO R R1 R2 i d rk id s draft MI MR)). Qed.
Print Assumptions C90_ctx_with_recovery_partial.

Theorem C91_ctx_with_recovery_partial
  (P : prims) (A : aead_len_ok P) (C : ctr_ok P) (EO : ec_ok P) (GO : gen_ok P) (R : sign_ok P) (R1 : rand_ok P) (R2 : sha_ok P) i d rk id s draft (MI : made_dev_info (di_value i)) (MR : made_cipher_key (ck_value rk)) :
  hides_op [di_cells i; buf_cells d; ck_cells rk; buf_cells id]
    ((recover_strings P (b_bytes d) (ck_value rk) (b_bytes id) s) ++ [])
    (h_ctx_gen_with_recovery P (Some i) (Some d) (Some rk) (Some id) s draft).
Proof. exact (or_hides _ _ _ _ _ _ _ _ _ _ (gen_with_recovery_rule P A C EO GO R R1 R2 i d rk id s draft MI MR)). Qed.
Print Assumptions C91_ctx_with_recovery_partial.

(* --- ctx_with_passphrase *)
Theorem C89_ctx_with_passphrase_partial
  (P : prims) (A : aead_len_ok P) (C : ctr_ok P) (S1 : scrypt_ok P) (S2 : hkdf_ok P) (EO : ec_ok P) (GO : gen_ok P) (R : sign_ok P) (R1 : rand_ok P) (R2 : sha_ok P) i e p d id s draft1 draft2 (MI : made_dev_info (di_value i))
  (C0 : ~ not_a_ciphertext P (b_bytes e) (b_bytes p) /\ forall m, kdf_meta_create_with_buffer (Some (b_bytes e)) = Val m -> ~ empty_bcrypt (km_algo m) (b_bytes p)) :
  performs_cleanly gr_cells gr_value [di_cells i; buf_cells e; buf_cells p; buf_cells d; buf_cells id]
    (fst (ctx_gen_with_passphrase P (Some (di_value i)) (Some (b_bytes e)) (Some (b_bytes p)) (Some (b_bytes d)) (Some (b_bytes id)) s))
    (passphrase_strings P (b_bytes e) (b_bytes p) (b_bytes d) (b_bytes id) s)
    (h_ctx_gen_with_passphrase P (Some i) (Some e) (Some p) (Some d) (Some id) s draft1 draft2).
Proof. exact (or_clean _ _ _ _ _ _ _ _ _ _ (gen_with_passphrase_rule P A C S1 S2 EO GO R R1 R2 i e p d id s draft1 draft2 MI) (decipher_fits P _ _ (proj1 C0) (proj2 C0))). Qed.
Print Assumptions C89_ctx_with_passphrase_partial.

Example C89_ctx_with_passphrase_case : performed [di_cells h_info; buf_cells h_recovery_key; buf_cells h_pass; buf_cells h_recovery; buf_cells h_identifier]
  (h_ctx_gen_with_passphrase toy (Some h_info) (Some h_recovery_key) (Some h_pass) (Some h_recovery) (Some h_identifier) 1 [] []).
Proof. by_running. Qed.

Theorem C90_ctx_with_passphrase_partial
  (P : prims) (A : aead_len_ok P) (C : ctr_ok P) (S1 : scrypt_ok P) (S2 : hkdf_ok P) (EO : ec_ok P) (GO : gen_ok P) (R : sign_ok P) (R1 : rand_ok P) (R2 : sha_ok P) i e p d id s draft1 draft2 (MI : made_dev_info (di_value i)) :
  performs_or_worse gr_cells gr_value [di_cells i; buf_cells e; buf_cells p; buf_cells d; buf_cells id]
    (fst (ctx_gen_with_passphrase P (Some (di_value i)) (Some (b_bytes e)) (Some (b_bytes p)) (Some (b_bytes d)) (Some (b_bytes id)) s))
    (uncached_of (fst (ctx_gen_with_passphrase P (Some (di_value i)) (Some (b_bytes e)) (Some (b_bytes p)) (Some (b_bytes d)) (Some (b_bytes id)) s)))
    (passphrase_strings P (b_bytes e) (b_bytes p) (b_bytes d) (b_bytes id) s)
    (kdf_decipher_derived P (b_bytes e) (b_bytes p))
    any_kind
    (kdf_decipher_leak P (b_bytes e) (b_bytes p))
    (h_ctx_gen_with_passphrase P (Some i) (Some e) (Some p) (Some d) (Some id) s draft1 draft2).
Proof. exact (or_sound _ _ _ _ _ _ _ _ _ _ (gen_with_passphrase_rule P A C S1 S2 EO GO R R1 R2 i e p d id s draft1 draft2 MI)). Qed.
Print Assumptions C90_ctx_with_passphrase_partial.

Theorem C91_ctx_with_passphrase_partial
  (P : prims) (A : aead_len_ok P) (C : ctr_ok P) (S1 : scrypt_ok P) (S2 : hkdf_ok P) (EO : ec_ok P) (GO : gen_ok P) (R : sign_ok P) (R1 : rand_ok P) (R2 : sha_ok P) i e p d id s draft1 draft2 (MI : made_dev_info (di_value i)) :
  hides_op [di_cells i; buf_cells e; buf_cells p; buf_cells d; buf_cells id]
    ((passphrase_strings P (b_bytes e) (b_bytes p) (b_bytes d) (b_bytes id) s) ++ (kdf_decipher_derived P (b_bytes e) (b_bytes p)))
    (h_ctx_gen_with_passphrase P (Some i) (Some e) (Some p) (Some d) (Some id) s draft1 draft2).
Proof. exact (or_hides _ _ _ _ _ _ _ _ _ _ (gen_with_passphrase_rule P A C S1 S2 EO GO R R1 R2 i e p d id s draft1 draft2 MI)). Qed.
Print Assumptions C91_ctx_with_passphrase_partial.

Theorem C92_chain_accepted_partial
  (P : prims) (R : sha_ok P) c fails h b c' h' : heap_ok h -> in_memory h (ch_cells c) ->
  h_chain_validate P c fails h = Some ((b, c'), h') ->
  (b = true -> chain_passes P (ch_value c)) /\ ch_root (ch_value c') = ch_root (ch_value c) /\ ch_node (ch_value c') = ch_node (ch_value c).
Proof. exact (accepted_chain P R c fails h b c' h'). Qed.
Print Assumptions C92_chain_accepted_partial.

Theorem C92_node_accepted_partial
  (P : prims) (R : sha_ok P) n fails h b n' h' : heap_ok h -> in_memory h (nd_cells n) ->
  h_node_verify_signature_chain P n fails h = Some ((b, n'), h') ->
  b = true -> fst (node_verify_signature_chain P (nd_value n)) = true \/
    chain_passes P (nd_chain (nd_value n)) /\ keypair_verify_owner P (nd_keypair (nd_value n)) (Some (ch_node (nd_chain (nd_value n)))) = true.
Proof. exact (accepted_node P R n fails h b n' h'). Qed.
Print Assumptions C92_node_accepted_partial.

Example C92_chain_accepted_case : changes_as [] (ch_cells h_chain) fst (h_chain_validate toy h_chain).
Proof. by_changing. Qed.
Example C92_node_accepted_case : changes_as [] (nd_cells h_node) fst (h_node_verify_signature_chain toy h_node).
Proof. by_changing. Qed.

(* --- the conditions of the theorems hold of the cases above *)
Example C89_laws : sha_ok toy /\ sign_ok toy /\ rand_ok toy /\ gen_ok toy /\ ec_ok toy /\ aead_len_ok toy /\ ctr_ok toy /\ scrypt_ok toy /\ hkdf_ok toy.
Proof. exact toy_laws. Qed.
Example C89_info_condition : made_dev_info (di_value h_info) /\ made_root_keys (rk_value h_root) /\ made_ec_key (key_value h_exchange_key) /\ made_cipher_key (ck_value h_other_key).
Proof. exact made_arguments. Qed.
Example C89_ctx_import_condition : ~ not_a_ciphertext toy (b_bytes h_exported) (b_bytes h_pass) /\ forall m, kdf_meta_create_with_buffer (Some (b_bytes h_exported)) = Val m -> ~ empty_bcrypt (km_algo m) (b_bytes h_pass).
Proof. exact exported_condition. Qed.
Example C89_ctx_with_passphrase_condition : ~ not_a_ciphertext toy (b_bytes h_recovery_key) (b_bytes h_pass) /\ forall m, kdf_meta_create_with_buffer (Some (b_bytes h_recovery_key)) = Val m -> ~ empty_bcrypt (km_algo m) (b_bytes h_pass).
Proof. exact recovery_key_condition. Qed.
Example C89_ctx_with_keys_condition : (forall q, ek_pri (rk_signature (rk_value h_root)) = Some q -> p_d2i toy q <> None) /\ ~ new_chain_rejected toy (rk_value h_root) (b_bytes h_identifier) 1.
Proof. exact with_keys_condition. Qed.
Example C89_ctx_with_sig_key_condition : (forall q, ek_pri (key_value h_exchange_key) = Some q -> p_d2i toy q <> None) /\
  forall k, fst (root_keys_generate toy 1%nat) = Val k -> ~ new_chain_rejected toy (with_sig k (Some (key_value h_exchange_key))) (b_bytes h_identifier) (3 + 1).
Proof. exact with_sig_condition. Qed.

(* --- what goes wrong *)
Theorem C89_ctx_import_refuted :
  change_leaves [buf_cells stray0; buf_cells aad0] (di_cells h_info) (taken cx_cells (di_cells h_info)) never derived0
    (h_ctx_import toy (Some h_info) (Some stray0) (Some aad0) []).
Proof. exact C89_ctx_import_refuted_ok. Qed.
Print Assumptions C89_ctx_import_refuted.

Theorem C89_ctx_with_keys_undecodable_refuted :
  op_leaves [di_cells h_info; rk_cells h_unusable; buf_cells h_identifier] never None []
    (h_ctx_gen_with_root_keys toy (Some h_info) (Some h_unusable) (Some h_identifier) 1).
Proof. exact C89_ctx_with_keys_undecodable_refuted_ok. Qed.
Print Assumptions C89_ctx_with_keys_undecodable_refuted.

Theorem C89_ctx_with_keys_refuted :
  op_leaves [di_cells h_info; rk_cells h_mixed; buf_cells h_identifier] never None v_mixed_cache
    (h_ctx_gen_with_root_keys toy (Some h_info) (Some h_mixed) (Some h_identifier) 1).
Proof. exact C89_ctx_with_keys_refuted_ok. Qed.
Print Assumptions C89_ctx_with_keys_refuted.

Theorem C89_ctx_with_sig_key_refuted :
  op_leaves [di_cells h_info; key_cells h_mixed_key; buf_cells h_identifier] never None v_mixed_sig_cache
    (h_ctx_gen_new_with_sig_key toy (Some h_info) (Some h_mixed_key) (Some h_identifier) 1).
Proof. exact C89_ctx_with_sig_key_refuted_ok. Qed.
Print Assumptions C89_ctx_with_sig_key_refuted.

Theorem C89_ctx_with_recovery_refuted :
  exists h, heap_ok h /\ all_in_memory h [di_cells h_info; buf_cells h_recovery; ck_cells h_other_key; buf_cells h_long] /\
    h_ctx_gen_with_recovery toy (Some h_info) (Some h_recovery) (Some h_other_key) (Some h_long) 1 [] never h = None.
Proof. exact C89_ctx_with_recovery_refuted_ok. Qed.
Print Assumptions C89_ctx_with_recovery_refuted.

Theorem C89_ctx_with_passphrase_refuted :
  exists h, heap_ok h /\ all_in_memory h [di_cells h_info; buf_cells h_recovery_key; buf_cells h_pass; buf_cells h_recovery; buf_cells h_long] /\
    h_ctx_gen_with_passphrase toy (Some h_info) (Some h_recovery_key) (Some h_pass) (Some h_recovery) (Some h_long) 1 [] [] never h = None.
Proof. exact C89_ctx_with_passphrase_refuted_ok. Qed.
Print Assumptions C89_ctx_with_passphrase_refuted.

Theorem C89_ctx_with_passphrase_leaks_refuted :
  op_leaves [di_cells h_info; buf_cells stray0; buf_cells aad0; buf_cells h_recovery; buf_cells h_identifier] never None derived0
    (h_ctx_gen_with_passphrase toy (Some h_info) (Some stray0) (Some aad0) (Some h_recovery) (Some h_identifier) 1 [] []).
Proof. exact C89_ctx_with_passphrase_leaks_refuted_ok. Qed.
Print Assumptions C89_ctx_with_passphrase_leaks_refuted.

Theorem C90_chain_validate_refuted :
  change_crashes [] (ch_cells h_chain)
    (h_chain_validate toy h_chain).
Proof. exact C90_chain_validate_refuted_ok. Qed.
Print Assumptions C90_chain_validate_refuted.

Theorem C90_node_verify_refuted :
  change_crashes [] (nd_cells h_node)
    (h_node_verify_signature_chain toy h_node).
Proof. exact C90_node_verify_refuted_ok. Qed.
Print Assumptions C90_node_verify_refuted.

Theorem C90_ctx_create_refuted :
  change_crashes [] (di_cells h_info ++ ch_cells h_chain ++ sk_cells h_storage_keys)
    (h_ctx_create toy (Some h_info) (Some h_chain) (Some h_storage_keys)).
Proof. exact C90_ctx_create_refuted_ok. Qed.
Print Assumptions C90_ctx_create_refuted.

Theorem C90_ctx_create_leaks_refuted :
  exists fails, change_leaves [] (di_cells h_info ++ ch_cells h_chain ++ sk_cells h_storage_keys) (taken cx_cells (di_cells h_info ++ ch_cells h_chain ++ sk_cells h_storage_keys)) fails v_header_ctx_create
    (h_ctx_create toy (Some h_info) (Some h_chain) (Some h_storage_keys)).
Proof. exact C90_ctx_create_leaks_refuted_ok. Qed.
Print Assumptions C90_ctx_create_leaks_refuted.

Theorem C90_ctx_parse_refuted :
  change_crashes [] (di_cells h_info)
    (h_ctx_from_bytes toy h_info v_context).
Proof. exact C90_ctx_parse_refuted_ok. Qed.
Print Assumptions C90_ctx_parse_refuted.

Theorem C90_ctx_parse_leaks_refuted :
  exists fails, change_leaves [] (di_cells h_info) (taken cx_cells (di_cells h_info)) fails v_header_ctx_parse
    (h_ctx_from_bytes toy h_info v_context).
Proof. exact C90_ctx_parse_leaks_refuted_ok. Qed.
Print Assumptions C90_ctx_parse_leaks_refuted.

Theorem C90_ctx_import_refuted :
  change_crashes [buf_cells h_exported; buf_cells h_pass] (di_cells h_info)
    (h_ctx_import toy (Some h_info) (Some h_exported) (Some h_pass) []).
Proof. exact C90_ctx_import_refuted_ok. Qed.
Print Assumptions C90_ctx_import_refuted.

Theorem C90_ctx_import_leaks_refuted :
  exists fails, change_leaves [buf_cells h_exported; buf_cells h_pass] (di_cells h_info) (taken cx_cells (di_cells h_info)) fails v_header_ctx_import
    (h_ctx_import toy (Some h_info) (Some h_exported) (Some h_pass) []).
Proof. exact C90_ctx_import_leaks_refuted_ok. Qed.
Print Assumptions C90_ctx_import_leaks_refuted.

Theorem C90_ctx_with_keys_refuted :
  op_crashes [di_cells h_info; rk_cells h_root; buf_cells h_identifier]
    (h_ctx_gen_with_root_keys toy (Some h_info) (Some h_root) (Some h_identifier) 1).
Proof. exact C90_ctx_with_keys_refuted_ok. Qed.
Print Assumptions C90_ctx_with_keys_refuted.

Theorem C90_ctx_with_keys_leaks_refuted :
  exists fails, op_leaves [di_cells h_info; rk_cells h_root; buf_cells h_identifier] fails None v_header_ctx_with_keys
    (h_ctx_gen_with_root_keys toy (Some h_info) (Some h_root) (Some h_identifier) 1).
Proof. exact C90_ctx_with_keys_leaks_refuted_ok. Qed.
Print Assumptions C90_ctx_with_keys_leaks_refuted.

Theorem C90_ctx_new_refuted :
  op_crashes [di_cells h_info; buf_cells h_identifier]
    (h_ctx_gen_new toy (Some h_info) (Some h_identifier) 1).
Proof. exact C90_ctx_new_refuted_ok. Qed.
Print Assumptions C90_ctx_new_refuted.

Theorem C90_ctx_new_leaks_refuted :
  exists fails, op_leaves [di_cells h_info; buf_cells h_identifier] fails None v_header_ctx_new
    (h_ctx_gen_new toy (Some h_info) (Some h_identifier) 1).
Proof. exact C90_ctx_new_leaks_refuted_ok. Qed.
Print Assumptions C90_ctx_new_leaks_refuted.

Theorem C90_ctx_with_sig_key_refuted :
  op_crashes [di_cells h_info; key_cells h_exchange_key; buf_cells h_identifier]
    (h_ctx_gen_new_with_sig_key toy (Some h_info) (Some h_exchange_key) (Some h_identifier) 1).
Proof. exact C90_ctx_with_sig_key_refuted_ok. Qed.
Print Assumptions C90_ctx_with_sig_key_refuted.

Theorem C90_ctx_with_sig_key_leaks_refuted :
  exists fails, op_leaves [di_cells h_info; key_cells h_exchange_key; buf_cells h_identifier] fails None v_header_ctx_with_sig_key
    (h_ctx_gen_new_with_sig_key toy (Some h_info) (Some h_exchange_key) (Some h_identifier) 1).
Proof. exact C90_ctx_with_sig_key_leaks_refuted_ok. Qed.
Print Assumptions C90_ctx_with_sig_key_leaks_refuted.

Theorem C90_ctx_with_recovery_refuted :
  op_crashes [di_cells h_info; buf_cells h_recovery; ck_cells h_other_key; buf_cells h_identifier]
    (h_ctx_gen_with_recovery toy (Some h_info) (Some h_recovery) (Some h_other_key) (Some h_identifier) 1 []).
Proof. exact C90_ctx_with_recovery_refuted_ok. Qed.
Print Assumptions C90_ctx_with_recovery_refuted.

Theorem C90_ctx_with_passphrase_refuted :
  op_crashes [di_cells h_info; buf_cells h_recovery_key; buf_cells h_pass; buf_cells h_recovery; buf_cells h_identifier]
    (h_ctx_gen_with_passphrase toy (Some h_info) (Some h_recovery_key) (Some h_pass) (Some h_recovery) (Some h_identifier) 1 [] []).
Proof. exact C90_ctx_with_passphrase_refuted_ok. Qed.
Print Assumptions C90_ctx_with_passphrase_refuted.

Theorem C90_ctx_with_passphrase_leaks_refuted :
  exists fails, op_leaves [di_cells h_info; buf_cells h_recovery_key; buf_cells h_pass; buf_cells h_recovery; buf_cells h_identifier] fails None v_derived_key
    (h_ctx_gen_with_passphrase toy (Some h_info) (Some h_recovery_key) (Some h_pass) (Some h_recovery) (Some h_identifier) 1 [] []).
Proof. exact C90_ctx_with_passphrase_leaks_refuted_ok. Qed.
Print Assumptions C90_ctx_with_passphrase_leaks_refuted.

Theorem C91_ctx_parse_refuted :
  change_exposes [] (di_cells h_info) never (key_bytes (sk_local (cx_storage v_ctx)))
    (h_ctx_from_bytes toy h_info v_context).
Proof. exact C91_ctx_parse_refuted_ok. Qed.
Print Assumptions C91_ctx_parse_refuted.

Theorem C91_ctx_import_refuted :
  change_exposes [buf_cells h_exported; buf_cells h_pass] (di_cells h_info) never (key_bytes (sk_local (cx_storage v_ctx)))
    (h_ctx_import toy (Some h_info) (Some h_exported) (Some h_pass) []).
Proof. exact C91_ctx_import_refuted_ok. Qed.
Print Assumptions C91_ctx_import_refuted.

Theorem C91_ctx_import_derived_refuted :
  exists fails, change_exposes [buf_cells h_exported; buf_cells h_pass] (di_cells h_info) fails v_derived_export
    (h_ctx_import toy (Some h_info) (Some h_exported) (Some h_pass) []).
Proof. exact C91_ctx_import_derived_refuted_ok. Qed.
Print Assumptions C91_ctx_import_derived_refuted.

Theorem C91_ctx_with_recovery_refuted :
  op_exposes [di_cells h_info; buf_cells h_recovery; ck_cells h_other_key; buf_cells h_identifier] never (key_bytes v_key)
    (h_ctx_gen_with_recovery toy (Some h_info) (Some h_recovery) (Some h_other_key) (Some h_identifier) 1 []).
Proof. exact C91_ctx_with_recovery_refuted_ok. Qed.
Print Assumptions C91_ctx_with_recovery_refuted.

Theorem C91_ctx_with_passphrase_refuted :
  op_exposes [di_cells h_info; buf_cells h_recovery_key; buf_cells h_pass; buf_cells h_recovery; buf_cells h_identifier] never (key_bytes v_key)
    (h_ctx_gen_with_passphrase toy (Some h_info) (Some h_recovery_key) (Some h_pass) (Some h_recovery) (Some h_identifier) 1 [] []).
Proof. exact C91_ctx_with_passphrase_refuted_ok. Qed.
Print Assumptions C91_ctx_with_passphrase_refuted.

Theorem C91_ctx_with_passphrase_derived_refuted :
  exists fails, op_exposes [di_cells h_info; buf_cells h_recovery_key; buf_cells h_pass; buf_cells h_recovery; buf_cells h_identifier] fails v_derived_key
    (h_ctx_gen_with_passphrase toy (Some h_info) (Some h_recovery_key) (Some h_pass) (Some h_recovery) (Some h_identifier) 1 [] []).
Proof. exact C91_ctx_with_passphrase_derived_refuted_ok. Qed.
Print Assumptions C91_ctx_with_passphrase_derived_refuted.

Theorem C92_chain_verdict_refuted :
  exists c fails h c1 h1 c2 h2, heap_ok h /\ in_memory h (ch_cells c) /\ fst (chain_validate toy (ch_value c)) = true /\
    h_chain_validate toy c fails h = Some ((false, c1), h1) /\ h_chain_validate toy c1 never h1 = Some ((false, c2), h2).
Proof. exact C92_chain_verdict_refuted_ok. Qed.
Print Assumptions C92_chain_verdict_refuted.

Theorem C92_node_verdict_refuted :
  exists n fails h n1 h1 n2 h2, heap_ok h /\ in_memory h (nd_cells n) /\ fst (node_verify_signature_chain toy (nd_value n)) = true /\
    h_node_verify_signature_chain toy n fails h = Some ((false, n1), h1) /\ h_node_verify_signature_chain toy n1 never h1 = Some ((false, n2), h2).
Proof. exact C92_node_verdict_refuted_ok. Qed.
Print Assumptions C92_node_verdict_refuted.
