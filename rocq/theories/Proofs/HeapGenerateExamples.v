(* Concrete arguments for the theorems of Props/PropsHeapGenerate.v, and what goes wrong with some. *)
From Verif.Base Require Import Bytes Monad.
From Verif.Model Require Import Buffer Cipher Ecdsa Kdf Prims Engine Keys Fingerprint Identity Node Stream Handshake Ctx Heap HeapObjects HeapMessages HeapEngine HeapProtocol HeapGenerate.
From Verif.Spec Require Import HeapSpec HeapObjectSpec CopySpec HeapParseSpec HeapEngineSpec HeapProtocolSpec HeapGenerateSpec.
From Verif.Proofs Require Import ToyPrims ToyObjects BytesFacts HeapFacts HeapObjectFacts HeapExamples HeapEngineFacts HeapEngineExamples HeapProtocolExamples.
Local Open Scope N_scope.

(* when the private keys that sign can be decoded, nothing is left behind *)
Lemma id_sign_fits P (x : option hid) : (forall i q, x = Some i -> hkey_pri (hid_key i) = Some q -> p_d2i P (b_bytes q) <> None) -> ~ sign_leak P (option_map hid_key x) never.
Proof. intros C. apply sign_fits. intros k q E. destruct x as [i|]; [|discriminate E]. apply Some_same in E. subst k. exact (C i q eq_refl). Qed.
Lemma ctx_sign_fits P (c : option hcx) : (forall i q, c = Some i -> hkey_pri (hid_key (hch_node (hcx_chain i))) = Some q -> p_d2i P (b_bytes q) <> None) ->
  ~ sign_leak P (option_map (fun x => hid_key (hch_node (hcx_chain x))) c) never.
Proof. intros C. apply sign_fits. intros k q E. destruct c as [i|]; [|discriminate E]. apply Some_same in E. subst k. exact (C i q eq_refl). Qed.

Local Open Scope nat_scope.
Definition pl_fp (f : fingerprint) : placed hfp := a <-@ fresh ;; d <-@ pl_buf (fp_data f) ;; pret {| hfp_addr := a; hfp_type := fp_type f; hfp_data := d |}.
Definition pl_tr (k : root_key) : placed htr :=
  a <-@ fresh ;; d <-@ pl_buf (rk_secret k) ;; pret {| htr_addr := a; htr_cipher := rk_cipher k; htr_secret := d; htr_send := rk_send k; htr_recv := rk_recv k |}.
Definition h_root_id : hid := Eval vm_compute in at_ 800 (pl_id (ch_root v_sender)).
Definition h_node_identity : hid := Eval vm_compute in at_ 820 (pl_id (ch_node (nd_chain v_node))).
(* an identity whose private key is not one *)
Definition h_broken_id : hid := Eval vm_compute in {| hid_addr := 840; hid_type := ID_ROOT; hid_identifier := at_ 841 (pl_buf [x69; x64]); hid_key := broken0; hid_sig := None |}.
Definition h_broken_ctx : hcx := Eval vm_compute in
  {| hcx_addr := 900; hcx_dev := hcx_dev h_ctx; hcx_storage := hcx_storage h_ctx; hcx_header := hcx_header h_ctx; hcx_version := 4%N;
     hcx_chain := {| hch_addr := 901; hch_root := h_root_id; hch_node := h_broken_id; hch_status := S_UNKNOWN; hch_cache := None |} |}.
Definition h_system : hbuf := Eval vm_compute in at_ 850 (pl_buf [x6d; x61; x63; x68; x69; x6e; x65]).
Definition v_fp (x : identity) : fingerprint := match identity_get_fingerprint toy (Some x) with Val f => f | _ => {| fp_type := FP_SHA512; fp_data := [] |} end.
Definition h_local_fp : hfp := Eval vm_compute in at_ 852 (pl_fp (v_fp (ch_root v_sender))).
Definition h_remote_fp : hfp := Eval vm_compute in at_ 856 (pl_fp (v_fp (ch_node (nd_chain v_node)))).
Definition v_transport : root_key := {| rk_cipher := AES256_GCM; rk_secret := repeat x3c 32; rk_send := 512%N; rk_recv := 512%N |}.
Definition h_transport : htr := Eval vm_compute in at_ 860 (pl_tr v_transport).
Definition h_salt : hbuf := Eval vm_compute in at_ 864 (pl_buf (repeat x1f 64)).
Definition h_stream_id : hbuf := Eval vm_compute in at_ 866 (pl_buf [x73; x65; x6e; x64; x65; x72]).
Definition v_stream_bytes : bytes := Eval vm_compute in
  bytes_of (kdf_algo_hash toy {| km_algo := KDF_HKDF_SHA512; km_salt := Some (repeat x1f 64); km_info := Some [x73; x65; x6e; x64; x65; x72] |} (repeat x3c 32)).
Definition v_seed : bytes := Eval vm_compute in oval [] (p_rand toy 3 64%N).
Definition v_dev_salt : bytes := Eval vm_compute in oval [] (p_rand toy 0 64%N).

Lemma made_h_root : if_set made_root_keys (option_map rk_value (Some h_root)).
Proof. change (if_set made_root_keys (Some (rk_value h_root))). closed. Qed.
Lemma real_stream : real (b_bytes h_salt) /\ real (b_bytes h_stream_id).
Proof. split; closed. Qed.
Lemma root_condition : forall i q, Some h_root_id = Some i -> hkey_pri (hid_key i) = Some q -> p_d2i toy (b_bytes q) <> None.
Proof. intros i q E Q. apply Some_same in E. subst i. vm_compute in Q. injection Q as <-. vm_compute. discriminate. Qed.
Lemma ctx_condition : forall i q, Some h_ctx = Some i -> hkey_pri (hid_key (hch_node (hcx_chain i))) = Some q -> p_d2i toy (b_bytes q) <> None.
Proof. intros i q E Q. apply Some_same in E. subst i. vm_compute in Q. injection Q as <-. vm_compute. discriminate. Qed.

(* what goes wrong *)
Lemma C86_identity_sign_refuted_ok : op_leaves [id_cells h_broken_id; buf_cells h_data] never None [] (h_identity_sign toy (Some h_broken_id) (Some h_data) 1).
Proof. apply op_leaves_none; vm_compute; reflexivity. Qed.
Lemma C86_node_identity_refuted_ok : op_leaves [id_cells h_broken_id] never None [] (h_node_identity_gen toy (Some h_broken_id) None 1).
Proof. apply op_leaves_none; vm_compute; reflexivity. Qed.
Lemma C86_keypair_refuted_ok : op_leaves [id_cells h_broken_id] never None [] (h_keypair_generate_identity toy 7 (Some h_broken_id) 1).
Proof. apply op_leaves_none; vm_compute; reflexivity. Qed.
Lemma C86_ctx_keypair_refuted_ok : op_leaves [cx_cells h_broken_ctx] never None [] (h_ctx_ephemeral_keypair_gen toy (Some h_broken_ctx) 7 1).
Proof. apply op_leaves_none; vm_compute; reflexivity. Qed.
Lemma C87_identity_sign_refuted_ok : op_crashes [id_cells h_root_id; buf_cells h_data]
    (h_identity_sign toy (Some h_root_id) (Some h_data) 1).
Proof. refine (op_crashes_by _ (fun _ ty => match ty with T_ecdsa_result => true | _ => false end) _ _ _); vm_compute; reflexivity. Qed.
Lemma C87_node_identity_refuted_ok : op_crashes [id_cells h_root_id]
    (h_node_identity_gen toy (Some h_root_id) None 1).
Proof. refine (op_crashes_by _ (fun _ ty => match ty with T_ec_key => true | _ => false end) _ _ _); vm_compute; reflexivity. Qed.
Lemma C87_keypair_refuted_ok : op_crashes [id_cells h_root_id]
    (h_keypair_generate_identity toy 7 (Some h_root_id) 1).
Proof. refine (op_crashes_by _ (fun _ ty => match ty with T_ecdsa_result => true | _ => false end) _ _ _); vm_compute; reflexivity. Qed.
Lemma C87_ctx_keypair_refuted_ok : op_crashes [cx_cells h_ctx]
    (h_ctx_ephemeral_keypair_gen toy (Some h_ctx) 7 1).
Proof. refine (op_crashes_by _ (fun _ ty => match ty with T_openssl => true | _ => false end) _ _ _); vm_compute; reflexivity. Qed.
Lemma C87_root_keys_refuted_ok : op_crashes []
    (h_root_keys_generate toy 1).
Proof. refine (op_crashes_by _ (fun _ ty => match ty with T_cipher_key => true | _ => false end) _ _ _); vm_compute; reflexivity. Qed.
Lemma C87_localize_refuted_ok : op_crashes [rk_cells h_root; di_cells (hcx_dev h_ctx)]
    (h_root_keys_localize toy (Some h_root) (Some (hcx_dev h_ctx))).
Proof. refine (op_crashes_by _ (fun _ ty => match ty with T_cipher_key => true | _ => false end) _ _ _); vm_compute; reflexivity. Qed.
Lemma C87_dev_info_refuted_ok : op_crashes [buf_cells h_system]
    (h_dev_info_create_new toy (Some h_system) 0).
Proof. refine (op_crashes_by _ (fun _ ty => match ty with T_buffer => true | _ => false end) _ _ _); vm_compute; reflexivity. Qed.
Lemma C87_fingerprint_refuted_ok : op_crashes [key_cells (hid_key h_root_id); buf_cells h_system]
    (h_fingerprint_gen toy (Some (hid_key h_root_id)) (Some h_system) FP_SHA512).
Proof. refine (op_crashes_by _ (only 857) _ _ _); vm_compute; reflexivity. Qed.
Lemma C87_fingerprint_pair_refuted_ok : op_crashes [fp_cells h_local_fp; fp_cells h_remote_fp]
    (h_fingerprint_gen_bilateral toy (Some h_local_fp) (Some h_remote_fp) FP_SHA512).
Proof. refine (op_crashes_by _ (only 862) _ _ _); vm_compute; reflexivity. Qed.
Lemma C87_identity_fingerprint_refuted_ok : op_crashes [id_cells h_root_id]
    (h_identity_get_fingerprint toy (Some h_root_id)).
Proof. refine (op_crashes_by _ (only 813) _ _ _); vm_compute; reflexivity. Qed.
Lemma C87_identity_fingerprint_pair_refuted_ok : op_crashes [id_cells h_root_id; id_cells h_node_identity]
    (h_identity_get_bilateral_fingerprint toy (Some h_root_id) (Some h_node_identity)).
Proof. refine (op_crashes_by _ (only 850) _ _ _); vm_compute; reflexivity. Qed.
Lemma C87_transport_key_refuted_ok : op_crashes []
    (h_root_key_create_random toy AES256_GCM 512 512 0).
Proof. refine (op_crashes_by _ (fun _ ty => match ty with T_data => true | _ => false end) _ _ _); vm_compute; reflexivity. Qed.
Lemma C87_stream_key_derived_refuted_ok : op_crashes [tr_cells h_transport; buf_cells h_salt; buf_cells h_stream_id]
    (h_root_key_to_stream_key toy h_transport h_salt h_stream_id ENCODE).
Proof. refine (op_crashes_by _ (fun _ ty => match ty with T_cipher_key => true | _ => false end) _ _ _); vm_compute; reflexivity. Qed.
Lemma C87_stream_key_refuted_ok : op_crashes []
    (h_stream_key_create_rand toy AES256_GCM 512 1).
Proof. refine (op_crashes_by _ (fun _ ty => match ty with T_cipher_key => true | _ => false end) _ _ _); vm_compute; reflexivity. Qed.
Lemma C87_stream_iv_refuted_ok : op_crashes []
    (h_stream_iv_create toy AES256_GCM 3).
Proof. refine (op_crashes_by _ (fun _ ty => match ty with T_data => true | _ => false end) _ _ _); vm_compute; reflexivity. Qed.
Lemma C87_stream_key_derived_leaks_refuted_ok : exists fails, op_leaves [tr_cells h_transport; buf_cells h_salt; buf_cells h_stream_id] fails None v_stream_bytes
    (h_root_key_to_stream_key toy h_transport h_salt h_stream_id ENCODE).
Proof. exists (only 876). apply op_leaves_none; vm_compute; reflexivity. Qed.
Lemma C88_stream_key_derived_refuted_ok : exists fails, op_exposes [tr_cells h_transport; buf_cells h_salt; buf_cells h_stream_id] fails v_stream_bytes
    (h_root_key_to_stream_key toy h_transport h_salt h_stream_id ENCODE).
Proof. exists (only 871). apply op_exposes_by; vm_compute; reflexivity. Qed.
Lemma C88_stream_iv_refuted_ok : exists fails, op_exposes [] fails v_seed
    (h_stream_iv_create toy AES256_GCM 3).
Proof. exists (only 3). apply op_exposes_by; vm_compute; reflexivity. Qed.
Lemma C88_dev_info_refuted_ok : exists fails, op_exposes [buf_cells h_system] fails v_dev_salt
    (h_dev_info_create_new toy (Some h_system) 0).
Proof. exists (only 854). apply op_exposes_by; vm_compute; reflexivity. Qed.
