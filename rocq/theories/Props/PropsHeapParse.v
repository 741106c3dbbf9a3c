(* C73-C75: reading objects from bytes, as operations on memory *)
From Verif.Base Require Import Bytes Monad.
From Verif.Model Require Import Buffer Cipher Ecdsa Kdf Prims Engine Identity Node Stream TransportPacket Keys Payload Exchange Packet Heap HeapObjects HeapMessages HeapParse.
From Verif.Spec Require Import HeapSpec HeapObjectSpec HeapParseSpec.
From Verif.Proofs Require Import HeapFacts HeapObjectFacts HeapParseFacts HeapExamples HeapParseExamples ToyPrims.

(* --- cipher_key *)
Theorem C73_cipher_key :
  parses_cleanly ck_cells ck_value cipher_key_from_buffer
    no_bytes (with_input h_cipher_key_from_bytes).
Proof. exact (parse_clean _ _ _ _ _ _ _ (parse_sound _ _ cipher_key_from_buffer _ _ _ _ cipher_key_parse_rule) (fun _ F => F)). Qed.
Print Assumptions C73_cipher_key.

Theorem C74_cipher_key_partial :
  parses_in_memory ck_cells ck_value cipher_key_from_buffer
    no_bytes [T_cipher_key] never_leaks (with_input h_cipher_key_from_bytes).
Proof. exact (parse_sound _ _ cipher_key_from_buffer _ _ _ _ cipher_key_parse_rule). Qed.
Print Assumptions C74_cipher_key_partial.

Theorem C74_cipher_key_crashes_refuted :
  parse_crashes (with_input h_cipher_key_from_bytes).
Proof. exact (cipher_key_parse_crashes). Qed.
Print Assumptions C74_cipher_key_crashes_refuted.

Example C73_cipher_key_case : readable cipher_key_from_buffer.
Proof. refine (readable_by _ b_ck _). vm_compute. reflexivity. Qed.

(* --- cipher_result *)
Theorem C73_cipher_result :
  parses_cleanly cr_cells cr_value cipher_result_from_buffer
    sections (with_input h_cipher_result_from_bytes).
Proof. exact (parse_clean _ _ _ _ _ _ _ (parse_sound _ _ cipher_result_from_buffer _ _ _ _ cipher_result_parse_rule) (fun _ F => F)). Qed.
Print Assumptions C73_cipher_result.

Theorem C74_cipher_result_partial :
  parses_in_memory cr_cells cr_value cipher_result_from_buffer
    sections [T_cipher_result] never_leaks (with_input h_cipher_result_from_bytes).
Proof. exact (parse_sound _ _ cipher_result_from_buffer _ _ _ _ cipher_result_parse_rule). Qed.
Print Assumptions C74_cipher_result_partial.

Theorem C74_cipher_result_crashes_refuted :
  parse_crashes (with_input h_cipher_result_from_bytes).
Proof. exact (cipher_result_parse_crashes). Qed.
Print Assumptions C74_cipher_result_crashes_refuted.

Example C73_cipher_result_case : readable cipher_result_from_buffer.
Proof. refine (readable_by _ b_cr _). vm_compute. reflexivity. Qed.

(* --- ecdsa_result *)
Theorem C73_ecdsa_result :
  parses_cleanly sig_cells sig_value ecdsa_result_create_from_buffer
    no_bytes (with_input h_ecdsa_result_from_bytes).
Proof. exact (parse_clean _ _ _ _ _ _ _ (parse_sound _ _ ecdsa_result_create_from_buffer _ _ _ _ ecdsa_result_parse_rule) (fun _ F => F)). Qed.
Print Assumptions C73_ecdsa_result.

Theorem C74_ecdsa_result_partial :
  parses_in_memory sig_cells sig_value ecdsa_result_create_from_buffer
    no_bytes [T_ecdsa_result] never_leaks (with_input h_ecdsa_result_from_bytes).
Proof. exact (parse_sound _ _ ecdsa_result_create_from_buffer _ _ _ _ ecdsa_result_parse_rule). Qed.
Print Assumptions C74_ecdsa_result_partial.

Theorem C74_ecdsa_result_crashes_refuted :
  parse_crashes (with_input h_ecdsa_result_from_bytes).
Proof. exact (ecdsa_result_parse_crashes). Qed.
Print Assumptions C74_ecdsa_result_crashes_refuted.

Example C73_ecdsa_result_case : readable ecdsa_result_create_from_buffer.
Proof. refine (readable_by _ b_sig _). vm_compute. reflexivity. Qed.

(* --- kdf_meta *)
Theorem C73_kdf_meta :
  parses_cleanly km_cells km_value kdf_meta_create_with_buffer
    no_bytes (with_input h_kdf_meta_from_bytes).
Proof. exact (parse_clean _ _ _ _ _ _ _ (parse_sound _ _ kdf_meta_create_with_buffer _ _ _ _ kdf_meta_parse_rule) (fun _ => never_fails)). Qed.
Print Assumptions C73_kdf_meta.

Theorem C74_kdf_meta_partial :
  parses_in_memory km_cells km_value kdf_meta_create_with_buffer
    no_bytes [] leaks_on_failure (with_input h_kdf_meta_from_bytes).
Proof. exact (parse_sound _ _ kdf_meta_create_with_buffer _ _ _ _ kdf_meta_parse_rule). Qed.
Print Assumptions C74_kdf_meta_partial.

Example C73_kdf_meta_case : readable kdf_meta_create_with_buffer.
Proof. refine (readable_by _ b_km _). vm_compute. reflexivity. Qed.

(* --- public_key *)
Theorem C73_public_key :
  forall P, parses_cleanly key_cells key_value (fun b => lift (ec_key_import P b false))
    no_bytes (with_input (h_ec_key_import P false)).
Proof. exact (fun P => parse_clean _ _ _ _ _ _ _ (parse_sound _ _ (fun b => lift (ec_key_import P b false)) _ _ _ _ (public_import_rule P)) (fun _ F => F)). Qed.
Print Assumptions C73_public_key.

Theorem C74_public_key_partial :
  forall P, parses_in_memory key_cells key_value (fun b => lift (ec_key_import P b false))
    no_bytes [T_ec_key] never_leaks (with_input (h_ec_key_import P false)).
Proof. exact (fun P => parse_sound _ _ (fun b => lift (ec_key_import P b false)) _ _ _ _ (public_import_rule P)). Qed.
Print Assumptions C74_public_key_partial.

Theorem C74_public_key_crashes_refuted :
  parse_crashes (with_input (h_ec_key_import toy false)).
Proof. exact (public_key_parse_crashes). Qed.
Print Assumptions C74_public_key_crashes_refuted.

Example C73_public_key_case : readable (fun b => lift (ec_key_import toy b false)).
Proof. refine (readable_by _ b_pub _). vm_compute. reflexivity. Qed.

(* --- private_key *)
Theorem C73_private_key :
  forall P, parses_cleanly key_cells key_value (fun b => lift (ec_key_import P b true))
    (import_public P true) (with_input (h_ec_key_import P true)).
Proof. exact (fun P => parse_clean _ _ _ _ _ _ _ (parse_sound _ _ (fun b => lift (ec_key_import P b true)) _ _ _ _ (private_import_rule P)) (fun _ => never_fails)). Qed.
Print Assumptions C73_private_key.

Theorem C74_private_key_partial :
  forall P, parses_in_memory key_cells key_value (fun b => lift (ec_key_import P b true))
    (import_public P true) [T_ec_key] leaks_on_failure (with_input (h_ec_key_import P true)).
Proof. exact (fun P => parse_sound _ _ (fun b => lift (ec_key_import P b true)) _ _ _ _ (private_import_rule P)). Qed.
Print Assumptions C74_private_key_partial.

Example C73_private_key_case : readable (fun b => lift (ec_key_import toy b true)).
Proof. refine (readable_by _ b_pri _). vm_compute. reflexivity. Qed.

(* --- identity *)
Theorem C73_identity :
  forall P, parses_cleanly id_cells id_value (identity_create_from_buffer P)
    (of_message pb_identity_unpack identity_fields (identity_public P)) (with_input (h_identity_from_bytes P)).
Proof. exact (fun P => parse_clean _ _ _ _ _ _ _ (parse_sound _ _ (identity_create_from_buffer P) _ _ _ _ (identity_bytes_rule P)) (fun _ => never_fails)). Qed.
Print Assumptions C73_identity.

Theorem C74_identity_partial :
  forall P, parses_in_memory id_cells id_value (identity_create_from_buffer P)
    (of_message pb_identity_unpack identity_fields (identity_public P)) [T_ec_key; T_ecdsa_result] leaks_on_failure (with_input (h_identity_from_bytes P)).
Proof. exact (fun P => parse_sound _ _ (identity_create_from_buffer P) _ _ _ _ (identity_bytes_rule P)). Qed.
Print Assumptions C74_identity_partial.

Example C73_identity_case : readable (identity_create_from_buffer toy).
Proof. refine (readable_by _ b_id _). vm_compute. reflexivity. Qed.

(* --- chain *)
Theorem C73_chain :
  forall P, parses_cleanly ch_cells ch_value (chain_create_from_buffer P)
    (of_message pb_chain_unpack chain_fields (chain_public P)) (with_input (h_chain_from_bytes P)).
Proof. exact (fun P => parse_clean _ _ _ _ _ _ _ (parse_sound _ _ (chain_create_from_buffer P) _ _ _ _ (chain_bytes_rule P)) (fun _ => never_fails)). Qed.
Print Assumptions C73_chain.

Theorem C74_chain_partial :
  forall P, parses_in_memory ch_cells ch_value (chain_create_from_buffer P)
    (of_message pb_chain_unpack chain_fields (chain_public P)) [T_ec_key; T_ecdsa_result] leaks_on_failure (with_input (h_chain_from_bytes P)).
Proof. exact (fun P => parse_sound _ _ (chain_create_from_buffer P) _ _ _ _ (chain_bytes_rule P)). Qed.
Print Assumptions C74_chain_partial.

Example C73_chain_case : readable (chain_create_from_buffer toy).
Proof. refine (readable_by _ b_ch _). vm_compute. reflexivity. Qed.

(* --- keypair *)
Theorem C73_keypair :
  forall P, parses_cleanly kp_cells kp_value (keypair_create_from_buffer P)
    (of_message pb_keypair_unpack keypair_fields keypair_public) (with_input (h_keypair_from_bytes P)).
Proof. exact (fun P => parse_clean _ _ _ _ _ _ _ (parse_sound _ _ (keypair_create_from_buffer P) _ _ _ _ (keypair_bytes_rule P)) (fun _ F => F)). Qed.
Print Assumptions C73_keypair.

Theorem C74_keypair_partial :
  forall P, parses_in_memory kp_cells kp_value (keypair_create_from_buffer P)
    (of_message pb_keypair_unpack keypair_fields keypair_public) [T_ec_key; T_ecdsa_result] never_leaks (with_input (h_keypair_from_bytes P)).
Proof. exact (fun P => parse_sound _ _ (keypair_create_from_buffer P) _ _ _ _ (keypair_bytes_rule P)). Qed.
Print Assumptions C74_keypair_partial.

Example C73_keypair_case : readable (keypair_create_from_buffer toy).
Proof. refine (readable_by _ b_kp _). vm_compute. reflexivity. Qed.

(* --- node *)
Theorem C73_node :
  forall P, parses_cleanly nd_cells nd_value (node_create_from_buffer P)
    (of_message pb_node_unpack node_fields (node_public P)) (with_input (h_node_from_bytes P)).
Proof. exact (fun P => parse_clean _ _ _ _ _ _ _ (parse_sound _ _ (node_create_from_buffer P) _ _ _ _ (node_bytes_rule P)) (fun _ => never_fails)). Qed.
Print Assumptions C73_node.

Theorem C74_node_partial :
  forall P, parses_in_memory nd_cells nd_value (node_create_from_buffer P)
    (of_message pb_node_unpack node_fields (node_public P)) [T_ec_key; T_ecdsa_result] leaks_on_failure (with_input (h_node_from_bytes P)).
Proof. exact (fun P => parse_sound _ _ (node_create_from_buffer P) _ _ _ _ (node_bytes_rule P)). Qed.
Print Assumptions C74_node_partial.

Example C73_node_case : readable (node_create_from_buffer toy).
Proof. refine (readable_by _ b_nd _). vm_compute. reflexivity. Qed.

(* --- root_keys *)
Theorem C73_root_keys :
  forall P, parses_cleanly rk_cells rk_value (root_keys_create_from_buffer P)
    (of_message pb_root_keys_unpack root_keys_fields (root_keys_public P)) (with_input (h_root_keys_from_bytes P)).
Proof. exact (fun P => parse_clean _ _ _ _ _ _ _ (parse_sound _ _ (root_keys_create_from_buffer P) _ _ _ _ (root_keys_bytes_rule P)) (fun _ => never_fails)). Qed.
Print Assumptions C73_root_keys.

Theorem C74_root_keys_partial :
  forall P, parses_in_memory rk_cells rk_value (root_keys_create_from_buffer P)
    (of_message pb_root_keys_unpack root_keys_fields (root_keys_public P)) [T_ec_key; T_cipher_key] leaks_on_failure (with_input (h_root_keys_from_bytes P)).
Proof. exact (fun P => parse_sound _ _ (root_keys_create_from_buffer P) _ _ _ _ (root_keys_bytes_rule P)). Qed.
Print Assumptions C74_root_keys_partial.

Example C73_root_keys_case : readable (root_keys_create_from_buffer toy).
Proof. refine (readable_by _ b_rk _). vm_compute. reflexivity. Qed.

(* --- exchange_set *)
Theorem C73_exchange_set :
  forall P, parses_cleanly xs_cells xs_value (exchange_set_create_from_buffer P)
    (of_message pb_exchange_set_unpack exchange_set_fields exchange_set_public) (with_input (h_exchange_set_from_bytes P)).
Proof. exact (fun P => parse_clean _ _ _ _ _ _ _ (parse_sound _ _ (exchange_set_create_from_buffer P) _ _ _ _ (exchange_set_bytes_rule P)) (fun _ F => F)). Qed.
Print Assumptions C73_exchange_set.

Theorem C74_exchange_set_partial :
  forall P, parses_in_memory xs_cells xs_value (exchange_set_create_from_buffer P)
    (of_message pb_exchange_set_unpack exchange_set_fields exchange_set_public) [T_cipher_result; T_key_exchange; T_ec_key] never_leaks (with_input (h_exchange_set_from_bytes P)).
Proof. exact (fun P => parse_sound _ _ (exchange_set_create_from_buffer P) _ _ _ _ (exchange_set_bytes_rule P)). Qed.
Print Assumptions C74_exchange_set_partial.

Theorem C74_exchange_set_crashes_refuted :
  parse_crashes (with_input (h_exchange_set_from_bytes toy)).
Proof. exact (exchange_set_parse_crashes). Qed.
Print Assumptions C74_exchange_set_crashes_refuted.

Example C73_exchange_set_case : readable (exchange_set_create_from_buffer toy).
Proof. refine (readable_by _ b_xs _). vm_compute. reflexivity. Qed.

(* --- storage_keys *)
Theorem C73_storage_keys :
  parses_cleanly sk_cells sk_value storage_keys_create_from_buffer
    (of_message pb_storage_keys_unpack storage_keys_fields no_bytes) (with_input h_storage_keys_from_bytes).
Proof. exact (parse_clean _ _ _ _ _ _ _ (parse_sound _ _ storage_keys_create_from_buffer _ _ _ _ storage_keys_bytes_rule) (fun _ F => F)). Qed.
Print Assumptions C73_storage_keys.

Theorem C74_storage_keys_partial :
  parses_in_memory sk_cells sk_value storage_keys_create_from_buffer
    (of_message pb_storage_keys_unpack storage_keys_fields no_bytes) [T_cipher_key] never_leaks (with_input h_storage_keys_from_bytes).
Proof. exact (parse_sound _ _ storage_keys_create_from_buffer _ _ _ _ storage_keys_bytes_rule). Qed.
Print Assumptions C74_storage_keys_partial.

Example C73_storage_keys_case : readable storage_keys_create_from_buffer.
Proof. refine (readable_by _ b_sk _). vm_compute. reflexivity. Qed.

(* --- stream_key *)
Theorem C73_stream_key_partial :
  parses_cleanly_on (fun b => ~ exists m, pb_stream_key_unpack b = Some m /\ pst_user m <> None /\ stream_key_create_from_proto m = Null)
    st_cells st_value stream_key_create_from_buffer (of_message pb_stream_key_unpack stream_key_fields no_bytes) (with_input h_stream_key_from_bytes).
Proof. exact (parse_clean_on _ _ _ _ _ _ _ _ (parse_sound _ _ stream_key_create_from_buffer _ _ _ _ stream_key_bytes_rule) odd_never). Qed.
Print Assumptions C73_stream_key_partial.

Theorem C74_stream_key_partial :
  parses_in_memory st_cells st_value stream_key_create_from_buffer
    (of_message pb_stream_key_unpack stream_key_fields no_bytes) [T_cipher_key] odd_stream_key (with_input h_stream_key_from_bytes).
Proof. exact (parse_sound _ _ stream_key_create_from_buffer _ _ _ _ stream_key_bytes_rule). Qed.
Print Assumptions C74_stream_key_partial.

Example C73_stream_key_case : readable stream_key_create_from_buffer.
Proof. refine (readable_by _ b_st _). vm_compute. reflexivity. Qed.

(* --- payload *)
Theorem C73_payload :
  parses_cleanly py_cells py_value (fun b => lift (payload_create_from_buffer b))
    (of_message pb_payload_unpack payload_fields payload_public) (with_input h_payload_from_bytes).
Proof. exact (parse_clean _ _ _ _ _ _ _ (parse_sound _ _ (fun b => lift (payload_create_from_buffer b)) _ _ _ _ payload_bytes_rule) (fun _ F => F)). Qed.
Print Assumptions C73_payload.

Theorem C74_payload_partial :
  parses_in_memory py_cells py_value (fun b => lift (payload_create_from_buffer b))
    (of_message pb_payload_unpack payload_fields payload_public) [T_packet_meta] never_leaks (with_input h_payload_from_bytes).
Proof. exact (parse_sound _ _ (fun b => lift (payload_create_from_buffer b)) _ _ _ _ payload_bytes_rule). Qed.
Print Assumptions C74_payload_partial.

Theorem C74_payload_crashes_refuted :
  parse_crashes (with_input h_payload_from_bytes).
Proof. exact (payload_parse_crashes). Qed.
Print Assumptions C74_payload_crashes_refuted.

Example C73_payload_case : readable (fun b => lift (payload_create_from_buffer b)).
Proof. refine (readable_by _ b_py _). vm_compute. reflexivity. Qed.

(* --- packet *)
Theorem C73_packet_partial :
  parses_cleanly_on (fun b => ~ odd_signature b) pt_cells pt_value packet_create_from_buffer sections (with_input h_packet_from_bytes).
Proof. exact (parse_clean_on _ _ _ _ _ _ _ _ (parse_sound _ _ packet_create_from_buffer _ _ _ _ packet_parse_rule) (fun b N => N)). Qed.
Print Assumptions C73_packet_partial.

Theorem C74_packet_partial :
  parses_in_memory pt_cells pt_value packet_create_from_buffer
    sections [T_ecdsa_result] (fun _ => odd_signature) (with_input h_packet_from_bytes).
Proof. exact (parse_sound _ _ packet_create_from_buffer _ _ _ _ packet_parse_rule). Qed.
Print Assumptions C74_packet_partial.

Theorem C74_packet_crashes_refuted :
  parse_crashes (with_input h_packet_from_bytes).
Proof. exact (packet_parse_crashes). Qed.
Print Assumptions C74_packet_crashes_refuted.

Example C73_packet_case : readable packet_create_from_buffer.
Proof. refine (readable_by _ (b_pt SHA512) _). vm_compute. reflexivity. Qed.

(* --- tpacket *)
Theorem C73_tpacket :
  parses_cleanly tp_cells tp_value tpacket_create_from_buffer
    tpacket_public (with_input h_tpacket_from_bytes).
Proof. exact (parse_clean _ _ _ _ _ _ _ (parse_sound _ _ tpacket_create_from_buffer _ _ _ _ tpacket_parse_rule) (fun _ F => F)). Qed.
Print Assumptions C73_tpacket.

Theorem C74_tpacket :
  parses_safely tp_cells tp_value tpacket_create_from_buffer
    tpacket_public (with_input h_tpacket_from_bytes).
Proof. exact (parse_strict _ _ _ _ _ (parse_sound _ _ tpacket_create_from_buffer _ _ _ _ tpacket_parse_rule)). Qed.
Print Assumptions C74_tpacket.

Example C73_tpacket_case : readable tpacket_create_from_buffer.
Proof. refine (readable_by _ b_tp _). vm_compute. reflexivity. Qed.

(* --- what goes wrong *)
Theorem C73_packet_leaks_refuted :
  parse_leaks (with_input h_packet_from_bytes) never.
Proof. exact (packet_parse_leaks). Qed.
Print Assumptions C73_packet_leaks_refuted.

Theorem C73_stream_key_leaks_refuted :
  parse_leaks (with_input h_stream_key_from_bytes) never.
Proof. exact (stream_key_parse_leaks). Qed.
Print Assumptions C73_stream_key_leaks_refuted.

Theorem C74_kdf_meta_leaks_refuted :
  parse_leaks (with_input h_kdf_meta_from_bytes) (fun _ ty => match ty with T_kdf_meta => true | _ => false end).
Proof. exact (kdf_meta_parse_leaks). Qed.
Print Assumptions C74_kdf_meta_leaks_refuted.

Theorem C74_private_key_leaks_refuted :
  parse_leaks (with_input (h_ec_key_import toy true)) (only 3).
Proof. exact (private_key_parse_leaks). Qed.
Print Assumptions C74_private_key_leaks_refuted.

Theorem C75_root_keys_exposed_refuted :
  parse_exposes (with_input (h_root_keys_from_bytes toy))
    (fun b => match pb_root_keys_unpack b with Some m => pr_signature m | None => None end).
Proof. exact (root_keys_exposed). Qed.
Print Assumptions C75_root_keys_exposed_refuted.

Theorem C75_storage_keys_exposed_refuted :
  parse_exposes (with_input h_storage_keys_from_bytes)
    (fun b => match pb_storage_keys_unpack b with Some m => ps_local m | None => None end).
Proof. exact (storage_keys_exposed). Qed.
Print Assumptions C75_storage_keys_exposed_refuted.

Theorem C75_stream_key_exposed_refuted :
  parse_exposes (with_input h_stream_key_from_bytes)
    (fun b => match pb_stream_key_unpack b with Some m => pst_cipher_key m | None => None end).
Proof. exact (stream_key_exposed). Qed.
Print Assumptions C75_stream_key_exposed_refuted.

Theorem C75_payload_exposed_refuted :
  parse_exposes (with_input h_payload_from_bytes)
    (fun b => match pb_payload_unpack b with Some m => Some (pp_body m) | None => None end).
Proof. exact (payload_exposed). Qed.
Print Assumptions C75_payload_exposed_refuted.

Theorem C75_chain_exposed_refuted :
  parse_exposes (with_input (h_chain_from_bytes toy))
    (fun b => match pb_chain_unpack b with
       | Some {| pc_node := Some i |} => match pi_is_private i with Some true => pi_sig_key i | _ => None end
       | _ => None end).
Proof. exact (chain_exposed). Qed.
Print Assumptions C75_chain_exposed_refuted.

Theorem C75_partial :
  parses_cleanly ck_cells ck_value cipher_key_from_buffer no_bytes (with_input h_cipher_key_from_bytes) /\
  (forall P, parses_cleanly key_cells key_value (fun b => lift (ec_key_import P b true)) (import_public P true) (with_input (h_ec_key_import P true))).
Proof. exact (conj C73_cipher_key C73_private_key). Qed.
Print Assumptions C75_partial.

