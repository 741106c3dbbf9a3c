(* C76-C78: turning objects into bytes, as operations on memory *)
From Verif.Base Require Import Bytes Monad.
From Verif.Model Require Import Buffer Cipher Ecdsa Kdf Prims Engine Identity Node Stream TransportPacket Keys Payload Exchange Packet Ctx Heap HeapObjects HeapMessages HeapWrite.
From Verif.Spec Require Import HeapSpec HeapObjectSpec CopySpec HeapWriteSpec.
From Verif.Proofs Require Import HeapFacts HeapObjectFacts HeapWriteFacts HeapExamples HeapWriteExamples ToyPrims.
Local Open Scope N_scope.

(* --- cipher_result *)
Theorem C76_cipher_result :
  writes_cleanly cr_cells cr_value (fun v => lift (cipher_result_serialize (Some v)))
    nothing h_cipher_result_serialize.
Proof. exact (write_clean _ _ _ _ _ _ _ _ (write_sound _ _ (fun v => lift (cipher_result_serialize (Some v))) never_wrong _ _ _ _ cipher_result_write)). Qed.
Print Assumptions C76_cipher_result.

Example C76_cipher_result_case : writable cr_cells cr_value (fun v => lift (cipher_result_serialize (Some v))).
Proof. refine (writable_by _ _ _ _ _ cr_witness _). vm_compute. reflexivity. Qed.

Theorem C77_cipher_result :
  writes_safely cr_cells cr_value (fun v => lift (cipher_result_serialize (Some v)))
    nothing h_cipher_result_serialize.
Proof. exact (write_strict _ _ _ _ _ (fun _ _ => eq_refl) (write_sound _ _ (fun v => lift (cipher_result_serialize (Some v))) never_wrong _ _ _ _ cipher_result_write) (fun v => lift_not_ub _)). Qed.
Print Assumptions C77_cipher_result.

(* --- cipher_key *)
Theorem C76_cipher_key :
  writes_cleanly ck_cells ck_value (fun v => lift (cipher_key_serialize (Some v)))
    nothing h_cipher_key_serialize.
Proof. exact (write_clean _ _ _ _ _ _ _ _ (write_sound _ _ (fun v => lift (cipher_key_serialize (Some v))) never_wrong _ _ _ _ cipher_key_write)). Qed.
Print Assumptions C76_cipher_key.

Example C76_cipher_key_case : writable ck_cells ck_value (fun v => lift (cipher_key_serialize (Some v))).
Proof. refine (writable_by _ _ _ _ _ ck_witness _). vm_compute. reflexivity. Qed.

Theorem C77_cipher_key :
  writes_safely ck_cells ck_value (fun v => lift (cipher_key_serialize (Some v)))
    nothing h_cipher_key_serialize.
Proof. exact (write_strict _ _ _ _ _ (fun _ _ => eq_refl) (write_sound _ _ (fun v => lift (cipher_key_serialize (Some v))) never_wrong _ _ _ _ cipher_key_write) (fun v => lift_not_ub _)). Qed.
Print Assumptions C77_cipher_key.

(* --- kdf_meta *)
Theorem C76_kdf_meta :
  writes_cleanly km_cells km_value (fun v => lift (kdf_meta_serialize (Some v)))
    nothing h_kdf_meta_serialize.
Proof. exact (write_clean _ _ _ _ _ _ _ _ (write_sound _ _ (fun v => lift (kdf_meta_serialize (Some v))) never_wrong _ _ _ _ kdf_meta_write)). Qed.
Print Assumptions C76_kdf_meta.

Example C76_kdf_meta_case : writable km_cells km_value (fun v => lift (kdf_meta_serialize (Some v))).
Proof. refine (writable_by _ _ _ _ _ km_witness _). vm_compute. reflexivity. Qed.

Theorem C77_kdf_meta :
  writes_safely km_cells km_value (fun v => lift (kdf_meta_serialize (Some v)))
    nothing h_kdf_meta_serialize.
Proof. exact (write_strict _ _ _ _ _ (fun _ _ => eq_refl) (write_sound _ _ (fun v => lift (kdf_meta_serialize (Some v))) never_wrong _ _ _ _ kdf_meta_write) (fun v => lift_not_ub _)). Qed.
Print Assumptions C77_kdf_meta.

(* --- ecdsa_result *)
Theorem C76_ecdsa_result :
  writes_cleanly sig_cells sig_value (fun v => lift (ecdsa_result_serialize (Some v)))
    nothing h_ecdsa_result_serialize.
Proof. exact (write_clean _ _ _ _ _ _ _ _ (write_sound _ _ (fun v => lift (ecdsa_result_serialize (Some v))) (fun s b => b = unpadded s) _ _ _ _ ecdsa_result_write_unpadded)). Qed.
Print Assumptions C76_ecdsa_result.

Example C76_ecdsa_result_case : writable sig_cells sig_value (fun v => lift (ecdsa_result_serialize (Some v))).
Proof. refine (writable_by _ _ _ _ _ sig_witness _). vm_compute. reflexivity. Qed.

Theorem C77_ecdsa_result_partial :
  null_is_null h_ecdsa_result_serialize /\
  writes_in_memory sig_cells sig_value (fun v => lift (ecdsa_result_serialize (Some v)))
    (fun s b => b = unpadded s)
    nothing [] false h_ecdsa_result_serialize.
Proof. exact (conj (fun _ _ => eq_refl) (write_sound _ _ (fun v => lift (ecdsa_result_serialize (Some v))) (fun s b => b = unpadded s) _ _ _ _ ecdsa_result_write_unpadded)). Qed.
Print Assumptions C77_ecdsa_result_partial.

(* --- identity *)
Theorem C76_identity :
  writes_cleanly id_cells id_value (fun v => lift (identity_serialize (Some v)))
    id_written h_identity_serialize.
Proof. exact (write_clean _ _ _ _ _ _ _ _ (write_sound _ _ (fun v => lift (identity_serialize (Some v))) (packs_spoiled (fun v => identity_build_proto v false) pb_identity_pack identity_spoiled) _ _ _ _ identity_write)). Qed.
Print Assumptions C76_identity.

Example C76_identity_case : writable id_cells id_value (fun v => lift (identity_serialize (Some v))).
Proof. refine (writable_by _ _ _ _ _ id_witness _). vm_compute. reflexivity. Qed.

Theorem C77_identity_partial :
  null_is_null h_identity_serialize /\
  writes_in_memory id_cells id_value (fun v => lift (identity_serialize (Some v)))
    (packs_spoiled (fun v => identity_build_proto v false) pb_identity_pack identity_spoiled)
    id_written [] false h_identity_serialize.
Proof. exact (conj (fun _ _ => eq_refl) (write_sound _ _ (fun v => lift (identity_serialize (Some v))) (packs_spoiled (fun v => identity_build_proto v false) pb_identity_pack identity_spoiled) _ _ _ _ identity_write)). Qed.
Print Assumptions C77_identity_partial.

(* --- chain *)
Theorem C76_chain :
  writes_cleanly ch_cells ch_value (fun v => lift (chain_serialize (Some v)))
    ch_written h_chain_serialize.
Proof. exact (write_clean _ _ _ _ _ _ _ _ (write_sound _ _ (fun v => lift (chain_serialize (Some v))) (packs_spoiled (fun v => chain_build_proto v false) pb_chain_pack chain_spoiled) _ _ _ _ chain_write)). Qed.
Print Assumptions C76_chain.

Example C76_chain_case : writable ch_cells ch_value (fun v => lift (chain_serialize (Some v))).
Proof. refine (writable_by _ _ _ _ _ ch_witness _). vm_compute. reflexivity. Qed.

Theorem C77_chain_partial :
  null_is_null h_chain_serialize /\
  writes_in_memory ch_cells ch_value (fun v => lift (chain_serialize (Some v)))
    (packs_spoiled (fun v => chain_build_proto v false) pb_chain_pack chain_spoiled)
    ch_written [] false h_chain_serialize.
Proof. exact (conj (fun _ _ => eq_refl) (write_sound _ _ (fun v => lift (chain_serialize (Some v))) (packs_spoiled (fun v => chain_build_proto v false) pb_chain_pack chain_spoiled) _ _ _ _ chain_write)). Qed.
Print Assumptions C77_chain_partial.

(* --- chain_private *)
Theorem C76_chain_private :
  writes_cleanly ch_cells ch_value (fun v => lift (chain_serialize_private (Some v)))
    ch_written h_chain_serialize_private.
Proof. exact (write_clean _ _ _ _ _ _ _ _ (write_sound _ _ (fun v => lift (chain_serialize_private (Some v))) (packs_spoiled (fun v => chain_build_proto v true) pb_chain_pack chain_spoiled) _ _ _ _ chain_private_write)). Qed.
Print Assumptions C76_chain_private.

Example C76_chain_private_case : writable ch_cells ch_value (fun v => lift (chain_serialize_private (Some v))).
Proof. refine (writable_by _ _ _ _ _ ch_witness _). vm_compute. reflexivity. Qed.

Theorem C77_chain_private_partial :
  null_is_null h_chain_serialize_private /\
  writes_in_memory ch_cells ch_value (fun v => lift (chain_serialize_private (Some v)))
    (packs_spoiled (fun v => chain_build_proto v true) pb_chain_pack chain_spoiled)
    ch_written [] false h_chain_serialize_private.
Proof. exact (conj (fun _ _ => eq_refl) (write_sound _ _ (fun v => lift (chain_serialize_private (Some v))) (packs_spoiled (fun v => chain_build_proto v true) pb_chain_pack chain_spoiled) _ _ _ _ chain_private_write)). Qed.
Print Assumptions C77_chain_private_partial.

(* --- keypair *)
Theorem C76_keypair :
  writes_cleanly kp_cells kp_value (fun v => lift (keypair_serialize (Some v)))
    kp_written h_keypair_serialize.
Proof. exact (write_clean _ _ _ _ _ _ _ _ (write_sound _ _ (fun v => lift (keypair_serialize (Some v))) (packs_spoiled keypair_to_proto pb_keypair_pack keypair_spoiled) _ _ _ _ keypair_write)). Qed.
Print Assumptions C76_keypair.

Example C76_keypair_case : writable kp_cells kp_value (fun v => lift (keypair_serialize (Some v))).
Proof. refine (writable_by _ _ _ _ _ kp_witness _). vm_compute. reflexivity. Qed.

Theorem C77_keypair_partial :
  null_is_null h_keypair_serialize /\
  writes_in_memory kp_cells kp_value (fun v => lift (keypair_serialize (Some v)))
    (packs_spoiled keypair_to_proto pb_keypair_pack keypair_spoiled)
    kp_written [] false h_keypair_serialize.
Proof. exact (conj (fun _ _ => eq_refl) (write_sound _ _ (fun v => lift (keypair_serialize (Some v))) (packs_spoiled keypair_to_proto pb_keypair_pack keypair_spoiled) _ _ _ _ keypair_write)). Qed.
Print Assumptions C77_keypair_partial.

(* --- node *)
Theorem C76_node :
  writes_cleanly nd_cells nd_value (fun v => lift (node_serialize (Some v)))
    nd_written h_node_serialize.
Proof. exact (write_clean _ _ _ _ _ _ _ _ (write_sound _ _ (fun v => lift (node_serialize (Some v))) (packs_spoiled node_to_proto pb_node_pack node_spoiled) _ _ _ _ node_write)). Qed.
Print Assumptions C76_node.

Example C76_node_case : writable nd_cells nd_value (fun v => lift (node_serialize (Some v))).
Proof. refine (writable_by _ _ _ _ _ nd_witness _). vm_compute. reflexivity. Qed.

Theorem C77_node_partial :
  null_is_null h_node_serialize /\
  writes_in_memory nd_cells nd_value (fun v => lift (node_serialize (Some v)))
    (packs_spoiled node_to_proto pb_node_pack node_spoiled)
    nd_written [] true h_node_serialize.
Proof. exact (conj (fun _ _ => eq_refl) (write_sound _ _ (fun v => lift (node_serialize (Some v))) (packs_spoiled node_to_proto pb_node_pack node_spoiled) _ _ _ _ node_write)). Qed.
Print Assumptions C77_node_partial.

(* --- exchange_set *)
Theorem C76_exchange_set :
  writes_cleanly xs_cells xs_value (fun v => lift (exchange_set_serialize (Some v)))
    xs_written h_exchange_set_serialize.
Proof. exact (write_clean _ _ _ _ _ _ _ _ (write_sound _ _ (fun v => lift (exchange_set_serialize (Some v))) never_wrong _ _ _ _ exchange_set_write)). Qed.
Print Assumptions C76_exchange_set.

Example C76_exchange_set_case : writable xs_cells xs_value (fun v => lift (exchange_set_serialize (Some v))).
Proof. refine (writable_by _ _ _ _ _ xs_full_witness _). vm_compute. reflexivity. Qed.

Theorem C77_exchange_set :
  writes_safely xs_cells xs_value (fun v => lift (exchange_set_serialize (Some v)))
    xs_written h_exchange_set_serialize.
Proof. exact (write_strict _ _ _ _ _ (fun _ _ => eq_refl) (write_sound _ _ (fun v => lift (exchange_set_serialize (Some v))) never_wrong _ _ _ _ exchange_set_write) (fun v => lift_not_ub _)). Qed.
Print Assumptions C77_exchange_set.

(* --- payload *)
Theorem C76_payload :
  writes_cleanly py_cells py_value (fun v => lift (payload_serialize (Some v)))
    nothing h_payload_serialize.
Proof. exact (write_clean _ _ _ _ _ _ _ _ (write_sound _ _ (fun v => lift (payload_serialize (Some v))) never_wrong _ _ _ _ payload_write)). Qed.
Print Assumptions C76_payload.

Example C76_payload_case : writable py_cells py_value (fun v => lift (payload_serialize (Some v))).
Proof. refine (writable_by _ _ _ _ _ py_witness _). vm_compute. reflexivity. Qed.

Theorem C77_payload :
  writes_safely py_cells py_value (fun v => lift (payload_serialize (Some v)))
    nothing h_payload_serialize.
Proof. exact (write_strict _ _ _ _ _ (fun _ _ => eq_refl) (write_sound _ _ (fun v => lift (payload_serialize (Some v))) never_wrong _ _ _ _ payload_write) (fun v => lift_not_ub _)). Qed.
Print Assumptions C77_payload.

(* --- packet *)
Theorem C76_packet :
  writes_cleanly pt_cells pt_value (fun v => lift (packet_serialize (Some v)))
    pt_written h_packet_serialize.
Proof. exact (write_clean _ _ _ _ _ _ _ _ (write_sound _ _ (fun v => lift (packet_serialize (Some v))) never_wrong _ _ _ _ packet_write)). Qed.
Print Assumptions C76_packet.

Example C76_packet_case : writable pt_cells pt_value (fun v => lift (packet_serialize (Some v))).
Proof. refine (writable_by _ _ _ _ _ pt_witness _). vm_compute. reflexivity. Qed.

Theorem C77_packet_partial :
  null_is_null h_packet_serialize /\
  writes_in_memory pt_cells pt_value (fun v => lift (packet_serialize (Some v)))
    never_wrong
    pt_written [] true h_packet_serialize.
Proof. exact (conj (fun _ _ => eq_refl) (write_sound _ _ (fun v => lift (packet_serialize (Some v))) never_wrong _ _ _ _ packet_write)). Qed.
Print Assumptions C77_packet_partial.

(* --- tpacket *)
Theorem C76_tpacket :
  writes_cleanly tp_cells tp_value (fun v => lift (tpacket_serialize v))
    tp_written h_tpacket_serialize.
Proof. exact (write_clean _ _ _ _ _ _ _ _ (write_sound _ _ (fun v => lift (tpacket_serialize v)) never_wrong _ _ _ _ tpacket_write)). Qed.
Print Assumptions C76_tpacket.

Example C76_tpacket_case : writable tp_cells tp_value (fun v => lift (tpacket_serialize v)).
Proof. refine (writable_by _ _ _ _ _ tp_witness _). vm_compute. reflexivity. Qed.

Theorem C77_tpacket :
  writes_safely tp_cells tp_value (fun v => lift (tpacket_serialize v))
    tp_written h_tpacket_serialize.
Proof. exact (write_strict _ _ _ _ _ (fun _ _ => eq_refl) (write_sound _ _ (fun v => lift (tpacket_serialize v)) never_wrong _ _ _ _ tpacket_write) (fun v => lift_not_ub _)). Qed.
Print Assumptions C77_tpacket.

(* --- root_keys *)
Theorem C76_root_keys :
  writes_cleanly rk_cells rk_value (fun v => root_keys_serialize (Some v))
    nothing h_root_keys_serialize.
Proof. exact (write_clean _ _ _ _ _ _ _ _ (write_sound _ _ (fun v => root_keys_serialize (Some v)) never_wrong _ _ _ _ root_keys_write)). Qed.
Print Assumptions C76_root_keys.

Example C76_root_keys_case : writable rk_cells rk_value (fun v => root_keys_serialize (Some v)).
Proof. refine (writable_by _ _ _ _ _ rk_witness _). vm_compute. reflexivity. Qed.

Theorem C77_root_keys_partial :
  writes_in_memory rk_cells rk_value (fun v => root_keys_serialize (Some v))
    never_wrong
    nothing [] false h_root_keys_serialize.
Proof. exact (write_sound _ _ (fun v => root_keys_serialize (Some v)) never_wrong _ _ _ _ root_keys_write). Qed.
Print Assumptions C77_root_keys_partial.

(* --- storage_keys *)
Theorem C76_storage_keys :
  writes_cleanly sk_cells sk_value (fun v => storage_keys_serialize (Some v))
    sk_written h_storage_keys_serialize.
Proof. exact (write_clean _ _ _ _ _ _ _ _ (write_sound _ _ (fun v => storage_keys_serialize (Some v)) never_wrong _ _ _ _ storage_keys_write)). Qed.
Print Assumptions C76_storage_keys.

Example C76_storage_keys_case : writable sk_cells sk_value (fun v => storage_keys_serialize (Some v)).
Proof. refine (writable_by _ _ _ _ _ sk_witness _). vm_compute. reflexivity. Qed.

Theorem C77_storage_keys_partial :
  null_is_null h_storage_keys_serialize /\
  writes_in_memory sk_cells sk_value (fun v => storage_keys_serialize (Some v))
    never_wrong
    sk_written [T_proto; T_buffer; T_data] false h_storage_keys_serialize.
Proof. exact (conj (fun _ _ => eq_refl) (write_sound _ _ (fun v => storage_keys_serialize (Some v)) never_wrong _ _ _ _ storage_keys_write)). Qed.
Print Assumptions C77_storage_keys_partial.

(* --- stream_key *)
Theorem C76_stream_key :
  writes_cleanly st_cells st_value (fun v => stream_key_serialize (Some v))
    st_written h_stream_key_serialize.
Proof. exact (write_clean _ _ _ _ _ _ _ _ (write_sound _ _ (fun v => stream_key_serialize (Some v)) never_wrong _ _ _ _ stream_key_write)). Qed.
Print Assumptions C76_stream_key.

Example C76_stream_key_case : writable st_cells st_value (fun v => stream_key_serialize (Some v)).
Proof. refine (writable_by _ _ _ _ _ st_witness _). vm_compute. reflexivity. Qed.

Theorem C77_stream_key_partial :
  null_is_null h_stream_key_serialize /\
  writes_in_memory st_cells st_value (fun v => stream_key_serialize (Some v))
    never_wrong
    st_written [T_proto; T_buffer; T_data] false h_stream_key_serialize.
Proof. exact (conj (fun _ _ => eq_refl) (write_sound _ _ (fun v => stream_key_serialize (Some v)) never_wrong _ _ _ _ stream_key_write)). Qed.
Print Assumptions C77_stream_key_partial.

(* --- ctx *)
Theorem C76_ctx :
  writes_cleanly cx_cells cx_value (fun v => lift (ctx_serialize (Some v)))
    cx_written h_ctx_serialize.
Proof. exact (write_clean _ _ _ _ _ _ _ _ (write_sound _ _ (fun v => lift (ctx_serialize (Some v))) (packs_spoiled ctx_to_proto pb_ctx_pack ctx_spoiled) _ _ _ _ ctx_write)). Qed.
Print Assumptions C76_ctx.

Example C76_ctx_case : writable cx_cells cx_value (fun v => lift (ctx_serialize (Some v))).
Proof. refine (writable_by _ _ _ _ _ cx_witness _). vm_compute. reflexivity. Qed.

Theorem C77_ctx_partial :
  null_is_null h_ctx_serialize /\
  writes_in_memory cx_cells cx_value (fun v => lift (ctx_serialize (Some v)))
    (packs_spoiled ctx_to_proto pb_ctx_pack ctx_spoiled)
    cx_written [T_proto] false h_ctx_serialize.
Proof. exact (conj (fun _ _ => eq_refl) (write_sound _ _ (fun v => lift (ctx_serialize (Some v))) (packs_spoiled ctx_to_proto pb_ctx_pack ctx_spoiled) _ _ _ _ ctx_write)). Qed.
Print Assumptions C77_ctx_partial.

(* --- what goes wrong *)
Theorem C77_ecdsa_result_spoiled_refuted :
  write_spoils sig_cells sig_value (fun v => lift (ecdsa_result_serialize (Some v))) made_signature h_ecdsa_result_serialize.
Proof. exact (ecdsa_result_spoiled_write). Qed.
Print Assumptions C77_ecdsa_result_spoiled_refuted.

Theorem C77_identity_spoiled_refuted :
  write_spoils id_cells id_value (fun v => lift (identity_serialize (Some v))) made_identity h_identity_serialize.
Proof. exact (identity_spoiled_write). Qed.
Print Assumptions C77_identity_spoiled_refuted.

Theorem C77_chain_spoiled_refuted :
  write_spoils ch_cells ch_value (fun v => lift (chain_serialize (Some v))) made_chain h_chain_serialize.
Proof. exact (chain_spoiled_write). Qed.
Print Assumptions C77_chain_spoiled_refuted.

Theorem C77_chain_private_spoiled_refuted :
  write_spoils ch_cells ch_value (fun v => lift (chain_serialize_private (Some v))) made_chain h_chain_serialize_private.
Proof. exact (chain_private_spoiled_write). Qed.
Print Assumptions C77_chain_private_spoiled_refuted.

Theorem C77_keypair_spoiled_refuted :
  write_spoils kp_cells kp_value (fun v => lift (keypair_serialize (Some v))) made_keypair h_keypair_serialize.
Proof. exact (keypair_spoiled_write). Qed.
Print Assumptions C77_keypair_spoiled_refuted.

Theorem C77_node_spoiled_refuted :
  write_spoils nd_cells nd_value (fun v => lift (node_serialize (Some v))) made_node h_node_serialize.
Proof. exact (node_spoiled_write). Qed.
Print Assumptions C77_node_spoiled_refuted.

Theorem C77_ctx_spoiled_refuted :
  write_spoils cx_cells cx_value (fun v => lift (ctx_serialize (Some v))) (fits_ctx toy) h_ctx_serialize.
Proof. exact (ctx_spoiled_write). Qed.
Print Assumptions C77_ctx_spoiled_refuted.

Theorem C77_packet_leaks_refuted :
  write_leaks pt_cells pt_value made_packet h_packet_serialize.
Proof. exact (packet_write_leaks). Qed.
Print Assumptions C77_packet_leaks_refuted.

Theorem C77_node_leaks_refuted :
  write_leaks nd_cells nd_value made_node h_node_serialize.
Proof. exact (node_write_leaks). Qed.
Print Assumptions C77_node_leaks_refuted.

Theorem C77_storage_keys_crashes_refuted :
  write_crashes sk_cells sk_value made_storage_keys h_storage_keys_serialize.
Proof. exact (storage_keys_write_crashes_proto). Qed.
Print Assumptions C77_storage_keys_crashes_refuted.

Theorem C77_storage_keys_data_crashes_refuted :
  write_crashes sk_cells sk_value made_storage_keys h_storage_keys_serialize.
Proof. exact (storage_keys_write_crashes_data). Qed.
Print Assumptions C77_storage_keys_data_crashes_refuted.

Theorem C77_stream_key_crashes_refuted :
  write_crashes st_cells st_value made_stream_key h_stream_key_serialize.
Proof. exact (stream_key_write_crashes_proto). Qed.
Print Assumptions C77_stream_key_crashes_refuted.

Theorem C77_stream_key_buffer_crashes_refuted :
  write_crashes st_cells st_value made_stream_key h_stream_key_serialize.
Proof. exact (stream_key_write_crashes_buffer). Qed.
Print Assumptions C77_stream_key_buffer_crashes_refuted.

Theorem C77_ctx_crashes_refuted :
  write_crashes cx_cells cx_value (fits_ctx toy) h_ctx_serialize.
Proof. exact (ctx_write_crashes_proto). Qed.
Print Assumptions C77_ctx_crashes_refuted.

Theorem C77_root_keys_null_refuted :
  forall fails h, h_root_keys_serialize None fails h = None.
Proof. exact (fun _ _ => eq_refl). Qed.
Print Assumptions C77_root_keys_null_refuted.

Theorem C77_root_keys_public_crashes_refuted :
  write_crashes rk_cells rk_value made_root_keys h_root_keys_serialize.
Proof. exact (root_keys_write_crashes). Qed.
Print Assumptions C77_root_keys_public_crashes_refuted.

Theorem C78_storage_keys_exposed_refuted :
  write_exposes sk_cells sk_value (fun v => ck_data (sk_local v)) h_storage_keys_serialize.
Proof. exact (storage_keys_write_exposed). Qed.
Print Assumptions C78_storage_keys_exposed_refuted.

Theorem C78_stream_key_exposed_refuted :
  write_exposes st_cells st_value (fun v => ck_data (sk_cipher v)) h_stream_key_serialize.
Proof. exact (stream_key_write_exposed). Qed.
Print Assumptions C78_stream_key_exposed_refuted.

Theorem C78_ctx_exposed_refuted :
  write_exposes cx_cells cx_value (fun v => ck_data (sk_local (cx_storage v))) h_ctx_serialize.
Proof. exact (ctx_write_exposed). Qed.
Print Assumptions C78_ctx_exposed_refuted.

Theorem C78_cipher_key_partial :
  write_wipes ck_cells ck_value nothing h_cipher_key_serialize.
Proof. exact (write_wipe _ _ _ _ _ _ _ _ (write_sound _ _ (fun v => lift (cipher_key_serialize (Some v))) never_wrong _ _ _ _ cipher_key_write)). Qed.
Print Assumptions C78_cipher_key_partial.

Theorem C78_root_keys_partial :
  write_wipes rk_cells rk_value nothing h_root_keys_serialize.
Proof. exact (write_wipe _ _ _ _ _ _ _ _ (write_sound _ _ (fun v => root_keys_serialize (Some v)) never_wrong _ _ _ _ root_keys_write)). Qed.
Print Assumptions C78_root_keys_partial.

Theorem C78_payload_partial :
  write_wipes py_cells py_value nothing h_payload_serialize.
Proof. exact (write_wipe _ _ _ _ _ _ _ _ (write_sound _ _ (fun v => lift (payload_serialize (Some v))) never_wrong _ _ _ _ payload_write)). Qed.
Print Assumptions C78_payload_partial.

Theorem C78_chain_private_partial :
  write_wipes ch_cells ch_value ch_written h_chain_serialize_private.
Proof. exact (write_wipe _ _ _ _ _ _ _ _ (write_sound _ _ (fun v => lift (chain_serialize_private (Some v))) (packs_spoiled (fun v => chain_build_proto v true) pb_chain_pack chain_spoiled) _ _ _ _ chain_private_write)). Qed.
Print Assumptions C78_chain_private_partial.

Theorem C78_kdf_meta_partial :
  write_wipes km_cells km_value nothing h_kdf_meta_serialize.
Proof. exact (write_wipe _ _ _ _ _ _ _ _ (write_sound _ _ (fun v => lift (kdf_meta_serialize (Some v))) never_wrong _ _ _ _ kdf_meta_write)). Qed.
Print Assumptions C78_kdf_meta_partial.

