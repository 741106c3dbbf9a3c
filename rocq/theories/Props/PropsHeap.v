(* C64-C66: copying and destroying objects, as operations on memory in which any allocation may fail *)
From Verif.Base Require Import Bytes Monad.
From Verif.Model Require Import Buffer Cipher Ecdsa Kdf Prims Engine Fingerprint Identity Node Stream TransportPacket EcdhCipher Handshake Transport Keys Payload Exchange Packet Ctx Heap HeapObjects HeapMessages.
From Verif.Spec Require Import CopySpec HeapSpec HeapObjectSpec.
From Verif.Proofs Require Import HeapFacts HeapObjectFacts HeapMessageFacts HeapTransportFacts HeapCtxFacts HeapExamples ToyPrims.

(* an object of this kind, of more than one block, that the library makes and that is in memory *)
Definition lives {T V} (cells : T -> list cell) (value : T -> V) (made : V -> Prop) : Prop :=
  exists h t, heap_ok h /\ in_memory h (cells t) /\ made (value t) /\ 1 < length (cells t).

(* --- buffer *)
Theorem C64_buffer :
  copies_safely buf_cells b_bytes real nothing h_buffer_copy.
Proof. exact (copy_rule_strict _ _ _ _ _ _ buffer_copy_rule). Qed.
Print Assumptions C64_buffer.

Theorem C65_buffer :
  destroys_in_memory buf_cells (fun t => [b_bytes t]) h_buffer_destroy.
Proof. exact (destroy_rule_sound _ _ _ _ buffer_destroy_rule). Qed.
Print Assumptions C65_buffer.

Theorem C66_buffer :
  independent buf_cells b_bytes whole real h_buffer_copy h_buffer_destroy.
Proof. exact (independent_of _ _ _ _ _ _ _ _ _ _ _ _ (buffer_copy_rule) buffer_destroy_rule). Qed.
Print Assumptions C66_buffer.

Example C64_buffer_case : lives buf_cells b_bytes real.
Proof. exact (witness_in_memory _ _ _ _ buf_witness). Qed.

(* --- ec_key *)
Theorem C64_ec_key_partial :
  copies_in_memory key_cells key_value whole exact_copy made_ec_key
    (fun t => key_copy_plain (key_value t)) [T_ec_key] false false h_ec_key_copy.
Proof. exact (copy_rule_sound _ _ _ _ _ _ _ _ _ _ (ec_key_copy_rule)). Qed.
Print Assumptions C64_ec_key_partial.

Theorem C64_ec_key_crashes_refuted :
  crashes key_cells key_value made_ec_key h_ec_key_copy.
Proof. exact (ec_key_crashes). Qed.
Print Assumptions C64_ec_key_crashes_refuted.

Theorem C65_ec_key :
  destroys_in_memory key_cells nothing h_ec_key_destroy.
Proof. exact (destroy_rule_sound _ _ _ _ ec_key_destroy_rule). Qed.
Print Assumptions C65_ec_key.

Theorem C66_ec_key :
  independent key_cells key_value whole made_ec_key h_ec_key_copy h_ec_key_destroy.
Proof. exact (independent_of _ _ _ _ _ _ _ _ _ _ _ _ (ec_key_copy_rule) ec_key_destroy_rule). Qed.
Print Assumptions C66_ec_key.

Example C64_ec_key_case : lives key_cells key_value made_ec_key.
Proof. exact (witness_in_memory _ _ _ _ key_witness). Qed.

(* --- ecdsa_result *)
Theorem C64_ecdsa_result_partial :
  copies_in_memory sig_cells sig_value whole exact_copy made_signature
    nothing [T_ecdsa_result] false false h_ecdsa_result_copy.
Proof. exact (copy_rule_sound _ _ _ _ _ _ _ _ _ _ (ecdsa_result_copy_rule)). Qed.
Print Assumptions C64_ecdsa_result_partial.

Theorem C64_ecdsa_result_crashes_refuted :
  crashes sig_cells sig_value made_signature h_ecdsa_result_copy.
Proof. exact (ecdsa_result_crashes). Qed.
Print Assumptions C64_ecdsa_result_crashes_refuted.

Theorem C65_ecdsa_result :
  destroys_in_memory sig_cells (fun t => sig_plain (sig_value t)) h_ecdsa_result_destroy.
Proof. exact (destroy_rule_sound _ _ _ _ ecdsa_result_destroy_rule). Qed.
Print Assumptions C65_ecdsa_result.

Theorem C66_ecdsa_result :
  independent sig_cells sig_value whole made_signature h_ecdsa_result_copy h_ecdsa_result_destroy.
Proof. exact (independent_of _ _ _ _ _ _ _ _ _ _ _ _ (ecdsa_result_copy_rule) ecdsa_result_destroy_rule). Qed.
Print Assumptions C66_ecdsa_result.

Example C64_ecdsa_result_case : lives sig_cells sig_value made_signature.
Proof. exact (witness_in_memory _ _ _ _ sig_witness). Qed.

(* --- cipher_key *)
Theorem C64_cipher_key_partial :
  copies_in_memory ck_cells ck_value whole exact_copy made_cipher_key
    nothing [T_cipher_key] false false h_cipher_key_copy.
Proof. exact (copy_rule_sound _ _ _ _ _ _ _ _ _ _ (cipher_key_copy_rule)). Qed.
Print Assumptions C64_cipher_key_partial.

Theorem C64_cipher_key_crashes_refuted :
  crashes ck_cells ck_value made_cipher_key h_cipher_key_copy.
Proof. exact (cipher_key_crashes). Qed.
Print Assumptions C64_cipher_key_crashes_refuted.

Theorem C65_cipher_key :
  destroys_in_memory ck_cells nothing h_cipher_key_destroy.
Proof. exact (destroy_rule_sound _ _ _ _ cipher_key_destroy_rule). Qed.
Print Assumptions C65_cipher_key.

Theorem C66_cipher_key :
  independent ck_cells ck_value whole made_cipher_key h_cipher_key_copy h_cipher_key_destroy.
Proof. exact (independent_of _ _ _ _ _ _ _ _ _ _ _ _ (cipher_key_copy_rule) cipher_key_destroy_rule). Qed.
Print Assumptions C66_cipher_key.

Example C64_cipher_key_case : lives ck_cells ck_value made_cipher_key.
Proof. exact (witness_in_memory _ _ _ _ ck_witness). Qed.

(* --- cipher_result *)
Theorem C64_cipher_result_partial :
  copies_in_memory cr_cells cr_value whole result_dropped made_cipher_result
    nothing [T_cipher_result] true true h_cipher_result_copy.
Proof. exact (copy_rule_sound _ _ _ _ _ _ _ _ _ _ (cipher_result_copy_rule)). Qed.
Print Assumptions C64_cipher_result_partial.

Theorem C64_cipher_result_crashes_refuted :
  crashes cr_cells cr_value made_cipher_result h_cipher_result_copy.
Proof. exact (cipher_result_crashes). Qed.
Print Assumptions C64_cipher_result_crashes_refuted.

Theorem C64_cipher_result_leaks_refuted :
  leaks cr_cells cr_value made_cipher_result h_cipher_result_copy.
Proof. exact (cipher_result_leaks). Qed.
Print Assumptions C64_cipher_result_leaks_refuted.

Theorem C64_cipher_result_drops_refuted :
  drops cr_cells cr_value made_cipher_result h_cipher_result_copy.
Proof. exact (cipher_result_drops). Qed.
Print Assumptions C64_cipher_result_drops_refuted.

Theorem C65_cipher_result :
  destroys_in_memory cr_cells (fun t => cr_plain (cr_value t)) h_cipher_result_destroy.
Proof. exact (destroy_rule_sound _ _ _ _ cipher_result_destroy_rule). Qed.
Print Assumptions C65_cipher_result.

Theorem C66_cipher_result :
  independent cr_cells cr_value whole made_cipher_result h_cipher_result_copy h_cipher_result_destroy.
Proof. exact (independent_of _ _ _ _ _ _ _ _ _ _ _ _ (cipher_result_copy_rule) cipher_result_destroy_rule). Qed.
Print Assumptions C66_cipher_result.

Example C64_cipher_result_case : lives cr_cells cr_value made_cipher_result.
Proof. exact (witness_in_memory _ _ _ _ cr_witness). Qed.

(* --- kdf_meta *)
Theorem C64_kdf_meta_partial :
  copies_in_memory km_cells km_value whole exact_copy made_kdf_meta
    (fun t => km_copy_plain (km_value t)) [] true false h_kdf_meta_copy.
Proof. exact (copy_rule_sound _ _ _ _ _ _ _ _ _ _ (kdf_meta_copy_rule)). Qed.
Print Assumptions C64_kdf_meta_partial.

Theorem C64_kdf_meta_leaks_refuted :
  leaks km_cells km_value made_kdf_meta h_kdf_meta_copy.
Proof. exact (kdf_meta_leaks). Qed.
Print Assumptions C64_kdf_meta_leaks_refuted.

Theorem C65_kdf_meta :
  destroys_in_memory km_cells (fun t => km_plain (km_value t)) h_kdf_meta_destroy.
Proof. exact (destroy_rule_sound _ _ _ _ kdf_meta_destroy_rule). Qed.
Print Assumptions C65_kdf_meta.

Theorem C66_kdf_meta :
  independent km_cells km_value whole made_kdf_meta h_kdf_meta_copy h_kdf_meta_destroy.
Proof. exact (independent_of _ _ _ _ _ _ _ _ _ _ _ _ (kdf_meta_copy_rule) kdf_meta_destroy_rule). Qed.
Print Assumptions C66_kdf_meta.

Example C64_kdf_meta_case : lives km_cells km_value made_kdf_meta.
Proof. exact (witness_in_memory _ _ _ _ km_witness). Qed.

(* --- kdf_result *)
Theorem C64_kdf_result_partial :
  copies_in_memory kr_cells kr_value whole exact_copy made_kdf_result
    (fun t => kr_copy_plain (kr_value t)) [] true false h_kdf_result_copy.
Proof. exact (copy_rule_sound _ _ _ _ _ _ _ _ _ _ (kdf_result_copy_rule)). Qed.
Print Assumptions C64_kdf_result_partial.

Theorem C64_kdf_result_leaks_refuted :
  leaks kr_cells kr_value made_kdf_result h_kdf_result_copy.
Proof. exact (kdf_result_leaks). Qed.
Print Assumptions C64_kdf_result_leaks_refuted.

Theorem C65_kdf_result :
  destroys_in_memory kr_cells (fun t => kr_plain (kr_value t)) h_kdf_result_destroy.
Proof. exact (destroy_rule_sound _ _ _ _ kdf_result_destroy_rule). Qed.
Print Assumptions C65_kdf_result.

Theorem C66_kdf_result :
  independent kr_cells kr_value whole made_kdf_result h_kdf_result_copy h_kdf_result_destroy.
Proof. exact (independent_of _ _ _ _ _ _ _ _ _ _ _ _ (kdf_result_copy_rule) kdf_result_destroy_rule). Qed.
Print Assumptions C66_kdf_result.

Example C64_kdf_result_case : lives kr_cells kr_value made_kdf_result.
Proof. exact (witness_in_memory _ _ _ _ kr_witness). Qed.

(* --- fingerprint *)
Theorem C64_fingerprint :
  copies_safely fp_cells fp_value made_fingerprint (fun t => fp_plain (fp_value t)) h_fingerprint_copy.
Proof. exact (copy_rule_strict _ _ _ _ _ _ fingerprint_copy_rule). Qed.
Print Assumptions C64_fingerprint.

Theorem C65_fingerprint :
  destroys_in_memory fp_cells (fun t => fp_plain (fp_value t)) h_fingerprint_destroy.
Proof. exact (destroy_rule_sound _ _ _ _ fingerprint_destroy_rule). Qed.
Print Assumptions C65_fingerprint.

Theorem C66_fingerprint :
  independent fp_cells fp_value whole made_fingerprint h_fingerprint_copy h_fingerprint_destroy.
Proof. exact (independent_of _ _ _ _ _ _ _ _ _ _ _ _ (fingerprint_copy_rule) fingerprint_destroy_rule). Qed.
Print Assumptions C66_fingerprint.

Example C64_fingerprint_case : lives fp_cells fp_value made_fingerprint.
Proof. exact (witness_in_memory _ _ _ _ fp_witness). Qed.

(* --- identity *)
Theorem C64_identity_partial :
  copies_in_memory id_cells id_value whole id_dropped made_identity
    (fun t => id_copy_plain (id_value t)) [T_ec_key; T_ecdsa_result] false true h_identity_copy.
Proof. exact (copy_rule_sound _ _ _ _ _ _ _ _ _ _ (identity_copy_rule)). Qed.
Print Assumptions C64_identity_partial.

Theorem C64_identity_drops_refuted :
  drops id_cells id_value made_identity h_identity_copy.
Proof. exact (identity_drops). Qed.
Print Assumptions C64_identity_drops_refuted.

Theorem C65_identity :
  destroys_in_memory id_cells (fun t => id_plain (id_value t)) h_identity_destroy.
Proof. exact (destroy_rule_sound _ _ _ _ identity_destroy_rule). Qed.
Print Assumptions C65_identity.

Theorem C66_identity :
  independent id_cells id_value whole made_identity h_identity_copy h_identity_destroy.
Proof. exact (independent_of _ _ _ _ _ _ _ _ _ _ _ _ (identity_copy_rule) identity_destroy_rule). Qed.
Print Assumptions C66_identity.

Example C64_identity_case : lives id_cells id_value made_identity.
Proof. exact (witness_in_memory _ _ _ _ id_witness). Qed.

(* --- chain *)
Theorem C64_chain_partial :
  copies_in_memory ch_cells ch_value whole ch_dropped made_chain
    (fun t => ch_copy_plain (ch_value t)) [T_ec_key; T_ecdsa_result] false true h_chain_copy.
Proof. exact (copy_rule_sound _ _ _ _ _ _ _ _ _ _ (chain_copy_rule)). Qed.
Print Assumptions C64_chain_partial.

Theorem C65_chain :
  destroys_in_memory ch_cells (fun t => ch_plain (ch_value t)) h_chain_destroy.
Proof. exact (destroy_rule_sound _ _ _ _ chain_destroy_rule). Qed.
Print Assumptions C65_chain.

Theorem C66_chain :
  independent ch_cells ch_value whole made_chain h_chain_copy h_chain_destroy.
Proof. exact (independent_of _ _ _ _ _ _ _ _ _ _ _ _ (chain_copy_rule) chain_destroy_rule). Qed.
Print Assumptions C66_chain.

Example C64_chain_case : lives ch_cells ch_value made_chain.
Proof. exact (witness_in_memory _ _ _ _ ch_witness). Qed.

(* --- keypair *)
Theorem C64_keypair_partial :
  copies_in_memory kp_cells kp_value whole exact_copy made_keypair
    (fun t => kp_copy_plain (kp_value t)) [T_ec_key; T_ecdsa_result] false false h_keypair_copy.
Proof. exact (copy_rule_sound _ _ _ _ _ _ _ _ _ _ (keypair_copy_rule)). Qed.
Print Assumptions C64_keypair_partial.

Theorem C65_keypair :
  destroys_in_memory kp_cells (fun t => kp_plain (kp_value t)) h_keypair_destroy.
Proof. exact (destroy_rule_sound _ _ _ _ keypair_destroy_rule). Qed.
Print Assumptions C65_keypair.

Theorem C66_keypair :
  independent kp_cells kp_value whole made_keypair h_keypair_copy h_keypair_destroy.
Proof. exact (independent_of _ _ _ _ _ _ _ _ _ _ _ _ (keypair_copy_rule) keypair_destroy_rule). Qed.
Print Assumptions C66_keypair.

Example C64_keypair_case : lives kp_cells kp_value made_keypair.
Proof. exact (witness_in_memory _ _ _ _ kp_witness). Qed.

(* --- node *)
Theorem C64_node_partial :
  copies_in_memory nd_cells nd_value whole nd_dropped made_node
    (fun t => nd_copy_plain (nd_value t)) [T_ec_key; T_ecdsa_result] false true h_node_copy.
Proof. exact (copy_rule_sound _ _ _ _ _ _ _ _ _ _ (node_copy_rule)). Qed.
Print Assumptions C64_node_partial.

Theorem C65_node :
  destroys_in_memory nd_cells (fun t => nd_plain (nd_value t)) h_node_destroy.
Proof. exact (destroy_rule_sound _ _ _ _ node_destroy_rule). Qed.
Print Assumptions C65_node.

Theorem C66_node :
  independent nd_cells nd_value whole made_node h_node_copy h_node_destroy.
Proof. exact (independent_of _ _ _ _ _ _ _ _ _ _ _ _ (node_copy_rule) node_destroy_rule). Qed.
Print Assumptions C66_node.

Example C64_node_case : lives nd_cells nd_value made_node.
Proof. exact (witness_in_memory _ _ _ _ nd_witness). Qed.

(* --- node_array *)
Theorem C64_node_array_partial :
  copies_in_memory (arr_cells nd_cells) (arr_value nd_value) whole nodes_dropped (made_items made_node)
    (fun t => nodes_copy_plain ((arr_value nd_value) t)) [T_ec_key; T_ecdsa_result] false true h_node_array_copy.
Proof. exact (copy_rule_sound _ _ _ _ _ _ _ _ _ _ (node_array_copy_rule)). Qed.
Print Assumptions C64_node_array_partial.

Theorem C65_node_array :
  destroys_in_memory (arr_cells nd_cells) (fun t => nodes_plain ((arr_value nd_value) t)) h_node_array_release.
Proof. exact (destroy_rule_sound _ _ _ _ node_array_destroy_rule). Qed.
Print Assumptions C65_node_array.

Theorem C66_node_array :
  independent (arr_cells nd_cells) (arr_value nd_value) whole (made_items made_node) h_node_array_copy h_node_array_release.
Proof. exact (independent_of _ _ _ _ _ _ _ _ _ _ _ _ (node_array_copy_rule) node_array_destroy_rule). Qed.
Print Assumptions C66_node_array.

Example C64_node_array_case : lives (arr_cells nd_cells) (arr_value nd_value) (made_items made_node).
Proof. exact (witness_in_memory _ _ _ _ nodes_witness). Qed.

(* --- packet_meta *)
Theorem C64_packet_meta_partial :
  copies_in_memory me_cells me_value whole exact_copy made_packet_meta
    (fun t => me_plain (me_value t)) [T_packet_meta] false false h_packet_meta_copy.
Proof. exact (copy_rule_sound _ _ _ _ _ _ _ _ _ _ (packet_meta_copy_rule)). Qed.
Print Assumptions C64_packet_meta_partial.

Theorem C64_packet_meta_crashes_refuted :
  crashes me_cells me_value made_packet_meta h_packet_meta_copy.
Proof. exact (packet_meta_crashes). Qed.
Print Assumptions C64_packet_meta_crashes_refuted.

Theorem C65_packet_meta :
  destroys_in_memory me_cells (fun t => me_plain (me_value t)) h_packet_meta_destroy.
Proof. exact (destroy_rule_sound _ _ _ _ packet_meta_destroy_rule). Qed.
Print Assumptions C65_packet_meta.

Theorem C66_packet_meta :
  independent me_cells me_value whole made_packet_meta h_packet_meta_copy h_packet_meta_destroy.
Proof. exact (independent_of _ _ _ _ _ _ _ _ _ _ _ _ (packet_meta_copy_rule) packet_meta_destroy_rule). Qed.
Print Assumptions C66_packet_meta.

Example C64_packet_meta_case : lives me_cells me_value made_packet_meta.
Proof. exact (witness_in_memory _ _ _ _ me_witness). Qed.

(* --- payload *)
Theorem C64_payload_partial :
  copies_in_memory py_cells py_value whole exact_copy made_payload
    (fun t => py_plain (py_value t)) [T_packet_meta] false false h_payload_copy.
Proof. exact (copy_rule_sound _ _ _ _ _ _ _ _ _ _ (payload_copy_rule)). Qed.
Print Assumptions C64_payload_partial.

Theorem C65_payload :
  destroys_in_memory py_cells (fun t => py_plain (py_value t)) h_payload_destroy.
Proof. exact (destroy_rule_sound _ _ _ _ payload_destroy_rule). Qed.
Print Assumptions C65_payload.

Theorem C66_payload :
  independent py_cells py_value whole made_payload h_payload_copy h_payload_destroy.
Proof. exact (independent_of _ _ _ _ _ _ _ _ _ _ _ _ (payload_copy_rule) payload_destroy_rule). Qed.
Print Assumptions C66_payload.

Example C64_payload_case : lives py_cells py_value made_payload.
Proof. exact (witness_in_memory _ _ _ _ py_witness). Qed.

(* --- key_exchange *)
Theorem C64_key_exchange_partial :
  copies_in_memory kx_cells kx_value whole kx_dropped made_key_exchange
    (fun t => kx_plain (kx_value t)) [T_cipher_result; T_key_exchange] true true h_key_exchange_copy.
Proof. exact (copy_rule_sound _ _ _ _ _ _ _ _ _ _ (key_exchange_copy_rule)). Qed.
Print Assumptions C64_key_exchange_partial.

Theorem C64_key_exchange_crashes_refuted :
  crashes kx_cells kx_value made_key_exchange h_key_exchange_copy.
Proof. exact (key_exchange_crashes). Qed.
Print Assumptions C64_key_exchange_crashes_refuted.

Theorem C65_key_exchange :
  destroys_in_memory kx_cells (fun t => kx_plain (kx_value t)) h_key_exchange_destroy.
Proof. exact (destroy_rule_sound _ _ _ _ key_exchange_destroy_rule). Qed.
Print Assumptions C65_key_exchange.

Theorem C66_key_exchange :
  independent kx_cells kx_value whole made_key_exchange h_key_exchange_copy h_key_exchange_destroy.
Proof. exact (independent_of _ _ _ _ _ _ _ _ _ _ _ _ (key_exchange_copy_rule) key_exchange_destroy_rule). Qed.
Print Assumptions C66_key_exchange.

Example C64_key_exchange_case : lives kx_cells kx_value made_key_exchange.
Proof. exact (witness_in_memory _ _ _ _ kx_witness). Qed.

(* --- exchange_array *)
Theorem C64_exchange_array_partial :
  copies_in_memory xa_cells xa_value whole xa_dropped (made_items made_key_exchange)
    (fun t => xa_copy_plain (xa_value t)) [T_cipher_result; T_key_exchange] true true h_exchange_array_copy.
Proof. exact (copy_rule_sound _ _ _ _ _ _ _ _ _ _ (exchange_array_copy_rule)). Qed.
Print Assumptions C64_exchange_array_partial.

Theorem C65_exchange_array :
  destroys_in_memory xa_cells (fun t => xa_plain (xa_value t)) h_exchange_array_destroy.
Proof. exact (destroy_rule_sound _ _ _ _ exchange_array_destroy_rule). Qed.
Print Assumptions C65_exchange_array.

Theorem C66_exchange_array :
  independent xa_cells xa_value whole (made_items made_key_exchange) h_exchange_array_copy h_exchange_array_destroy.
Proof. exact (independent_of _ _ _ _ _ _ _ _ _ _ _ _ (exchange_array_copy_rule) exchange_array_destroy_rule). Qed.
Print Assumptions C66_exchange_array.

Example C64_exchange_array_case : lives xa_cells xa_value (made_items made_key_exchange).
Proof. exact (witness_in_memory _ _ _ _ xa_witness). Qed.

(* --- exchange_set *)
Theorem C64_exchange_set_partial :
  copies_in_memory xs_cells xs_value whole xs_dropped fits_exchange_set
    (fun t => xs_copy_plain (xs_value t)) [T_ec_key; T_cipher_result; T_key_exchange] true true h_exchange_set_copy.
Proof. exact (copy_rule_sound _ _ _ _ _ _ _ _ _ _ (exchange_set_copy_rule)). Qed.
Print Assumptions C64_exchange_set_partial.

Theorem C65_exchange_set :
  destroys_in_memory xs_cells (fun t => xs_plain (xs_value t)) h_exchange_set_destroy.
Proof. exact (destroy_rule_sound _ _ _ _ exchange_set_destroy_rule). Qed.
Print Assumptions C65_exchange_set.

Theorem C66_exchange_set :
  independent xs_cells xs_value whole fits_exchange_set h_exchange_set_copy h_exchange_set_destroy.
Proof. exact (independent_of _ _ _ _ _ _ _ _ _ _ _ _ (exchange_set_copy_rule) exchange_set_destroy_rule). Qed.
Print Assumptions C66_exchange_set.

Example C64_exchange_set_case : lives xs_cells xs_value fits_exchange_set.
Proof. exact (witness_in_memory _ _ _ _ xs_witness). Qed.

(* --- packet *)
Theorem C64_packet_partial :
  copies_in_memory pt_cells pt_value whole exact_copy made_packet
    (fun t => pt_plain (pt_value t)) [T_ecdsa_result] false false h_packet_copy.
Proof. exact (copy_rule_sound _ _ _ _ _ _ _ _ _ _ (packet_copy_rule)). Qed.
Print Assumptions C64_packet_partial.

Theorem C65_packet :
  destroys_in_memory pt_cells (fun t => pt_plain (pt_value t)) h_packet_destroy.
Proof. exact (destroy_rule_sound _ _ _ _ packet_destroy_rule). Qed.
Print Assumptions C65_packet.

Theorem C66_packet :
  independent pt_cells pt_value whole made_packet h_packet_copy h_packet_destroy.
Proof. exact (independent_of _ _ _ _ _ _ _ _ _ _ _ _ (packet_copy_rule) packet_destroy_rule). Qed.
Print Assumptions C66_packet.

Example C64_packet_case : lives pt_cells pt_value made_packet.
Proof. exact (witness_in_memory _ _ _ _ pt_witness). Qed.

(* --- parse_result *)
Theorem C64_parse_result_partial :
  copies_in_memory pa_cells pa_value whole pa_dropped fits_parse_result
    (fun t => pa_copy_plain (pa_value t)) [T_ec_key; T_cipher_result; T_key_exchange] true true h_parse_result_copy.
Proof. exact (copy_rule_sound _ _ _ _ _ _ _ _ _ _ (parse_result_copy_rule)). Qed.
Print Assumptions C64_parse_result_partial.

Theorem C64_parse_result_drops_refuted :
  drops pa_cells pa_value fits_parse_result h_parse_result_copy.
Proof. exact (parse_result_drops). Qed.
Print Assumptions C64_parse_result_drops_refuted.

Theorem C65_parse_result :
  destroys_in_memory pa_cells (fun t => pa_plain (pa_value t)) h_parse_result_destroy.
Proof. exact (destroy_rule_sound _ _ _ _ parse_result_destroy_rule). Qed.
Print Assumptions C65_parse_result.

Theorem C66_parse_result :
  independent pa_cells pa_value whole fits_parse_result h_parse_result_copy h_parse_result_destroy.
Proof. exact (independent_of _ _ _ _ _ _ _ _ _ _ _ _ (parse_result_copy_rule) parse_result_destroy_rule). Qed.
Print Assumptions C66_parse_result.

Example C64_parse_result_case : lives pa_cells pa_value fits_parse_result.
Proof. exact (witness_in_memory _ _ _ _ pa_witness). Qed.

(* --- decode_result *)
Theorem C64_decode_result_partial :
  copies_in_memory de_cells de_value whole de_dropped made_decode_result
    (fun t => de_plain (de_value t)) [T_packet_meta; T_cipher_key] true true h_decode_result_copy.
Proof. exact (copy_rule_sound _ _ _ _ _ _ _ _ _ _ (decode_result_copy_rule)). Qed.
Print Assumptions C64_decode_result_partial.

Theorem C64_decode_result_leaks_refuted :
  leaks de_cells de_value made_decode_result h_decode_result_copy.
Proof. exact (decode_result_leaks). Qed.
Print Assumptions C64_decode_result_leaks_refuted.

Theorem C64_decode_result_drops_refuted :
  drops de_cells de_value made_decode_result h_decode_result_copy.
Proof. exact (decode_result_drops). Qed.
Print Assumptions C64_decode_result_drops_refuted.

Theorem C65_decode_result :
  destroys_in_memory de_cells (fun t => de_plain (de_value t)) h_decode_result_destroy.
Proof. exact (destroy_rule_sound _ _ _ _ decode_result_destroy_rule). Qed.
Print Assumptions C65_decode_result.

Theorem C66_decode_result :
  independent de_cells de_value whole made_decode_result h_decode_result_copy h_decode_result_destroy.
Proof. exact (independent_of _ _ _ _ _ _ _ _ _ _ _ _ (decode_result_copy_rule) decode_result_destroy_rule). Qed.
Print Assumptions C66_decode_result.

Example C64_decode_result_case : lives de_cells de_value made_decode_result.
Proof. exact (witness_in_memory _ _ _ _ de_witness). Qed.

(* --- encoder_result *)
Theorem C64_encoder_result_partial :
  copies_in_memory en_cells en_value whole exact_copy made_encoder_result
    (fun t => en_plain (en_value t)) [T_cipher_key; T_ecdsa_result] false false h_encoder_result_copy.
Proof. exact (copy_rule_sound _ _ _ _ _ _ _ _ _ _ (encoder_result_copy_rule)). Qed.
Print Assumptions C64_encoder_result_partial.

Theorem C65_encoder_result :
  destroys_in_memory en_cells (fun t => en_plain (en_value t)) h_encoder_result_destroy.
Proof. exact (destroy_rule_sound _ _ _ _ encoder_result_destroy_rule). Qed.
Print Assumptions C65_encoder_result.

Theorem C66_encoder_result :
  independent en_cells en_value whole made_encoder_result h_encoder_result_copy h_encoder_result_destroy.
Proof. exact (independent_of _ _ _ _ _ _ _ _ _ _ _ _ (encoder_result_copy_rule) encoder_result_destroy_rule). Qed.
Print Assumptions C66_encoder_result.

Example C64_encoder_result_case : lives en_cells en_value made_encoder_result.
Proof. exact (witness_in_memory _ _ _ _ en_witness). Qed.

(* --- root_keys *)
Theorem C64_root_keys_partial :
  copies_in_memory rk_cells rk_value whole exact_copy made_root_keys
    (fun t => rk_copy_plain (rk_value t)) [T_ec_key; T_cipher_key] false false h_root_keys_copy.
Proof. exact (copy_rule_sound _ _ _ _ _ _ _ _ _ _ (root_keys_copy_rule)). Qed.
Print Assumptions C64_root_keys_partial.

Theorem C65_root_keys :
  destroys_in_memory rk_cells nothing h_root_keys_destroy.
Proof. exact (destroy_rule_sound _ _ _ _ root_keys_destroy_rule). Qed.
Print Assumptions C65_root_keys.

Theorem C66_root_keys :
  independent rk_cells rk_value whole made_root_keys h_root_keys_copy h_root_keys_destroy.
Proof. exact (independent_of _ _ _ _ _ _ _ _ _ _ _ _ (root_keys_copy_rule) root_keys_destroy_rule). Qed.
Print Assumptions C66_root_keys.

Example C64_root_keys_case : lives rk_cells rk_value made_root_keys.
Proof. exact (witness_in_memory _ _ _ _ rk_witness). Qed.

(* --- storage_keys *)
Theorem C64_storage_keys_partial :
  copies_in_memory sk_cells sk_value whole exact_copy made_storage_keys
    nothing [T_cipher_key] false false h_storage_keys_copy.
Proof. exact (copy_rule_sound _ _ _ _ _ _ _ _ _ _ (storage_keys_copy_rule)). Qed.
Print Assumptions C64_storage_keys_partial.

Theorem C65_storage_keys :
  destroys_in_memory sk_cells nothing h_storage_keys_destroy.
Proof. exact (destroy_rule_sound _ _ _ _ storage_keys_destroy_rule). Qed.
Print Assumptions C65_storage_keys.

Theorem C66_storage_keys :
  independent sk_cells sk_value whole made_storage_keys h_storage_keys_copy h_storage_keys_destroy.
Proof. exact (independent_of _ _ _ _ _ _ _ _ _ _ _ _ (storage_keys_copy_rule) storage_keys_destroy_rule). Qed.
Print Assumptions C66_storage_keys.

Example C64_storage_keys_case : lives sk_cells sk_value made_storage_keys.
Proof. exact (witness_in_memory _ _ _ _ sk_witness). Qed.

(* --- dev_info *)
Theorem C64_dev_info :
  copies_safely di_cells di_value made_dev_info nothing h_dev_info_copy.
Proof. exact (copy_rule_strict _ _ _ _ _ _ dev_info_copy_rule). Qed.
Print Assumptions C64_dev_info.

Theorem C65_dev_info :
  destroys_in_memory di_cells nothing h_dev_info_destroy.
Proof. exact (destroy_rule_sound _ _ _ _ dev_info_destroy_rule). Qed.
Print Assumptions C65_dev_info.

Theorem C66_dev_info :
  independent di_cells di_value whole made_dev_info h_dev_info_copy h_dev_info_destroy.
Proof. exact (independent_of _ _ _ _ _ _ _ _ _ _ _ _ (dev_info_copy_rule) dev_info_destroy_rule). Qed.
Print Assumptions C66_dev_info.

Example C64_dev_info_case : lives di_cells di_value made_dev_info.
Proof. exact (witness_in_memory _ _ _ _ di_witness). Qed.

(* --- stream_key *)
Theorem C64_stream_key_partial :
  copies_in_memory st_cells st_value whole exact_copy made_stream_key
    (fun t => st_plain (st_value t)) [T_cipher_key] false false h_stream_key_copy.
Proof. exact (copy_rule_sound _ _ _ _ _ _ _ _ _ _ (stream_key_copy_rule)). Qed.
Print Assumptions C64_stream_key_partial.

Theorem C65_stream_key :
  destroys_in_memory st_cells (fun t => st_plain (st_value t)) h_stream_key_destroy.
Proof. exact (destroy_rule_sound _ _ _ _ stream_key_destroy_rule). Qed.
Print Assumptions C65_stream_key.

Theorem C66_stream_key :
  independent st_cells st_value whole made_stream_key h_stream_key_copy h_stream_key_destroy.
Proof. exact (independent_of _ _ _ _ _ _ _ _ _ _ _ _ (stream_key_copy_rule) stream_key_destroy_rule). Qed.
Print Assumptions C66_stream_key.

Example C64_stream_key_case : lives st_cells st_value made_stream_key.
Proof. exact (witness_in_memory _ _ _ _ st_witness). Qed.

(* --- stream_iv *)
Theorem C64_stream_iv :
  copies_safely si_cells si_value made_stream_iv (fun t => si_plain (si_value t)) h_stream_iv_copy.
Proof. exact (copy_rule_strict _ _ _ _ _ _ stream_iv_copy_rule). Qed.
Print Assumptions C64_stream_iv.

Theorem C65_stream_iv :
  destroys_in_memory si_cells (fun t => si_plain (si_value t)) h_stream_iv_destroy.
Proof. exact (destroy_rule_sound _ _ _ _ stream_iv_destroy_rule). Qed.
Print Assumptions C65_stream_iv.

Theorem C66_stream_iv :
  independent si_cells si_value whole made_stream_iv h_stream_iv_copy h_stream_iv_destroy.
Proof. exact (independent_of _ _ _ _ _ _ _ _ _ _ _ _ (stream_iv_copy_rule) stream_iv_destroy_rule). Qed.
Print Assumptions C66_stream_iv.

Example C64_stream_iv_case : lives si_cells si_value made_stream_iv.
Proof. exact (witness_in_memory _ _ _ _ si_witness). Qed.

(* --- stream_ctx *)
Theorem C64_stream_ctx_partial :
  copies_in_memory sc_cells sc_value whole sc_dropped made_stream_ctx
    (fun t => sc_plain (sc_value t)) [T_cipher_key] false true h_stream_ctx_copy.
Proof. exact (copy_rule_sound _ _ _ _ _ _ _ _ _ _ (stream_ctx_copy_rule)). Qed.
Print Assumptions C64_stream_ctx_partial.

Theorem C65_stream_ctx :
  destroys_in_memory sc_cells (fun t => sc_plain (sc_value t)) h_stream_ctx_destroy.
Proof. exact (destroy_rule_sound _ _ _ _ stream_ctx_destroy_rule). Qed.
Print Assumptions C65_stream_ctx.

Theorem C66_stream_ctx :
  independent sc_cells sc_value whole made_stream_ctx h_stream_ctx_copy h_stream_ctx_destroy.
Proof. exact (independent_of _ _ _ _ _ _ _ _ _ _ _ _ (stream_ctx_copy_rule) stream_ctx_destroy_rule). Qed.
Print Assumptions C66_stream_ctx.

Example C64_stream_ctx_case : lives sc_cells sc_value made_stream_ctx.
Proof. exact (witness_in_memory _ _ _ _ sc_witness). Qed.

(* --- root_key *)
Theorem C64_root_key :
  copies_safely tr_cells tr_value made_root_key nothing h_root_key_copy.
Proof. exact (copy_rule_strict _ _ _ _ _ _ root_key_copy_rule). Qed.
Print Assumptions C64_root_key.

Theorem C65_root_key :
  destroys_in_memory tr_cells nothing h_root_key_destroy.
Proof. exact (destroy_rule_sound _ _ _ _ root_key_destroy_rule). Qed.
Print Assumptions C65_root_key.

Theorem C66_root_key :
  independent tr_cells tr_value whole made_root_key h_root_key_copy h_root_key_destroy.
Proof. exact (independent_of _ _ _ _ _ _ _ _ _ _ _ _ (root_key_copy_rule) root_key_destroy_rule). Qed.
Print Assumptions C66_root_key.

Example C64_root_key_case : lives tr_cells tr_value made_root_key.
Proof. exact (witness_in_memory _ _ _ _ tr_witness). Qed.

(* --- tpacket *)
Theorem C64_tpacket :
  copies_in_memory tp_cells tp_value detached tp_detached made_tpacket
    (fun t => tp_copy_plain (tp_value t)) [] false false h_tpacket_copy.
Proof. exact (copy_rule_sound _ _ _ _ _ _ _ _ _ _ (tpacket_copy_rule)). Qed.
Print Assumptions C64_tpacket.

Theorem C65_tpacket :
  destroys_in_memory tp_cells (fun t => tp_plain (tp_value t)) h_tpacket_destroy.
Proof. exact (destroy_rule_sound _ _ _ _ tpacket_destroy_rule). Qed.
Print Assumptions C65_tpacket.

Theorem C66_tpacket :
  independent tp_cells tp_value detached made_tpacket h_tpacket_copy h_tpacket_destroy.
Proof. exact (independent_of _ _ _ _ _ _ _ _ _ _ _ _ (tpacket_copy_rule) tpacket_destroy_rule). Qed.
Print Assumptions C66_tpacket.

Example C64_tpacket_case : lives tp_cells tp_value made_tpacket.
Proof. exact (witness_in_memory _ _ _ _ tp_witness). Qed.

(* --- ecdh_ctx *)
Theorem C64_ecdh_ctx_partial :
  copies_in_memory ex_cells ex_value whole exact_copy made_ecdh_ctx
    (fun t => ex_copy_plain (ex_value t)) [T_ec_key] false false h_ecdh_ctx_copy.
Proof. exact (copy_rule_sound _ _ _ _ _ _ _ _ _ _ (ecdh_ctx_copy_rule)). Qed.
Print Assumptions C64_ecdh_ctx_partial.

Theorem C65_ecdh_ctx :
  destroys_in_memory ex_cells nothing h_ecdh_ctx_destroy.
Proof. exact (destroy_rule_sound _ _ _ _ ecdh_ctx_destroy_rule). Qed.
Print Assumptions C65_ecdh_ctx.

Theorem C66_ecdh_ctx :
  independent ex_cells ex_value whole made_ecdh_ctx h_ecdh_ctx_copy h_ecdh_ctx_destroy.
Proof. exact (independent_of _ _ _ _ _ _ _ _ _ _ _ _ (ecdh_ctx_copy_rule) ecdh_ctx_destroy_rule). Qed.
Print Assumptions C66_ecdh_ctx.

Example C64_ecdh_ctx_case : lives ex_cells ex_value made_ecdh_ctx.
Proof. exact (witness_in_memory _ _ _ _ ex_witness). Qed.

(* --- handshake_res *)
Theorem C64_handshake_res_partial :
  copies_in_memory hr_cells hr_value whole exact_copy made_handshake_res
    (fun t => hr_plain (hr_value t)) [T_cipher_key] false false h_handshake_res_copy.
Proof. exact (copy_rule_sound _ _ _ _ _ _ _ _ _ _ (handshake_res_copy_rule)). Qed.
Print Assumptions C64_handshake_res_partial.

Theorem C65_handshake_res :
  destroys_in_memory hr_cells (fun t => hr_plain (hr_value t)) h_handshake_res_destroy.
Proof. exact (destroy_rule_sound _ _ _ _ handshake_res_destroy_rule). Qed.
Print Assumptions C65_handshake_res.

Theorem C66_handshake_res :
  independent hr_cells hr_value whole made_handshake_res h_handshake_res_copy h_handshake_res_destroy.
Proof. exact (independent_of _ _ _ _ _ _ _ _ _ _ _ _ (handshake_res_copy_rule) handshake_res_destroy_rule). Qed.
Print Assumptions C66_handshake_res.

Example C64_handshake_res_case : lives hr_cells hr_value made_handshake_res.
Proof. exact (witness_in_memory _ _ _ _ hr_witness). Qed.

(* --- packet_list *)
Theorem C64_packet_list :
  copies_safely pl_cells pl_value (made_items real) (fun t => pl_copy_plain (pl_value t)) h_packet_list_copy.
Proof. exact (copy_rule_strict _ _ _ _ _ _ packet_list_copy_rule). Qed.
Print Assumptions C64_packet_list.

Theorem C65_packet_list :
  destroys_in_memory pl_cells (fun t => pl_plain (pl_value t)) h_packet_list_destroy.
Proof. exact (destroy_rule_sound _ _ _ _ packet_list_destroy_rule). Qed.
Print Assumptions C65_packet_list.

Theorem C66_packet_list :
  independent pl_cells pl_value whole (made_items real) h_packet_list_copy h_packet_list_destroy.
Proof. exact (independent_of _ _ _ _ _ _ _ _ _ _ _ _ (packet_list_copy_rule) packet_list_destroy_rule). Qed.
Print Assumptions C66_packet_list.

Example C64_packet_list_case : lives pl_cells pl_value (made_items real).
Proof. exact (witness_in_memory _ _ _ _ pl_witness). Qed.

(* --- handshake *)
Theorem C64_handshake_partial :
  copies_in_memory hs_cells hs_value hs_keep hs_dropped fits_handshake
    (fun t => hs_copy_plain (hs_value t)) [T_ec_key; T_ecdsa_result] false true h_handshake_copy.
Proof. exact (copy_rule_sound _ _ _ _ _ _ _ _ _ _ (handshake_copy_rule)). Qed.
Print Assumptions C64_handshake_partial.

Theorem C65_handshake :
  destroys_in_memory hs_cells (fun t => hs_plain (hs_value t)) h_handshake_destroy.
Proof. exact (destroy_rule_sound _ _ _ _ handshake_destroy_rule). Qed.
Print Assumptions C65_handshake.

Theorem C66_handshake :
  independent hs_cells hs_value hs_keep fits_handshake h_handshake_copy h_handshake_destroy.
Proof. exact (independent_of _ _ _ _ _ _ _ _ _ _ _ _ (handshake_copy_rule) handshake_destroy_rule). Qed.
Print Assumptions C66_handshake.

Example C64_handshake_case : lives hs_cells hs_value fits_handshake.
Proof. exact (witness_in_memory _ _ _ _ hs_witness). Qed.

(* --- transport *)
Theorem C64_transport_partial :
  copies_in_memory tc_cells tc_value tc_keep tc_dropped fits_transport
    (fun t => tc_copy_plain (tc_value t)) [T_ec_key; T_ecdsa_result; T_cipher_key] false true h_transport_copy.
Proof. exact (copy_rule_sound _ _ _ _ _ _ _ _ _ _ (transport_copy_rule)). Qed.
Print Assumptions C64_transport_partial.

Theorem C65_transport :
  destroys_in_memory tc_cells (fun t => tc_plain (tc_value t)) h_transport_destroy.
Proof. exact (destroy_rule_sound _ _ _ _ transport_destroy_rule). Qed.
Print Assumptions C65_transport.

Theorem C66_transport :
  independent tc_cells tc_value tc_keep fits_transport h_transport_copy h_transport_destroy.
Proof. exact (independent_of _ _ _ _ _ _ _ _ _ _ _ _ (transport_copy_rule) transport_destroy_rule). Qed.
Print Assumptions C66_transport.

Example C64_transport_case : lives tc_cells tc_value fits_transport.
Proof. exact (witness_in_memory _ _ _ _ tc_witness). Qed.

(* --- ctx *)
Theorem C64_ctx_partial :
  forall P, digests_sized P -> copies_in_memory cx_cells cx_value whole (cx_dropped P) (fits_ctx P)
    (fun t => cx_copy_plain (cx_value t)) [T_ec_key; T_ecdsa_result; T_cipher_key; T_buffer; T_data; T_ctx] false true (h_ctx_copy P).
Proof. exact (fun P Sized => copy_rule_sound _ _ _ _ _ _ _ _ _ _ (ctx_copy_rule P Sized)). Qed.
Print Assumptions C64_ctx_partial.

Theorem C64_ctx_crashes_refuted :
  crashes cx_cells cx_value (fits_ctx toy) (h_ctx_copy toy).
Proof. exact (ctx_crashes). Qed.
Print Assumptions C64_ctx_crashes_refuted.

Theorem C65_ctx :
  destroys_in_memory cx_cells (fun t => cx_plain (cx_value t)) h_ctx_destroy.
Proof. exact (destroy_rule_sound _ _ _ _ ctx_destroy_rule). Qed.
Print Assumptions C65_ctx.

Theorem C66_ctx :
  forall P, digests_sized P -> independent cx_cells cx_value whole (fits_ctx P) (h_ctx_copy P) h_ctx_destroy.
Proof. exact (fun P Sized => independent_of _ _ _ _ _ _ _ _ _ _ _ _ (ctx_copy_rule P Sized) ctx_destroy_rule). Qed.
Print Assumptions C66_ctx.

Example C64_ctx_case : lives cx_cells cx_value (fits_ctx toy).
Proof. exact (witness_in_memory _ _ _ _ cx_witness). Qed.

(* --- gen_result *)
Theorem C64_gen_result_partial :
  forall P, digests_sized P -> copies_in_memory gr_cells gr_value whole (gr_dropped P) (fits_gen_result P)
    (fun t => gr_copy_plain (gr_value t)) [T_ec_key; T_ecdsa_result; T_cipher_key; T_buffer; T_data; T_ctx] false true (h_gen_result_copy P).
Proof. exact (fun P Sized => copy_rule_sound _ _ _ _ _ _ _ _ _ _ (gen_result_copy_rule P Sized)). Qed.
Print Assumptions C64_gen_result_partial.

Theorem C65_gen_result :
  destroys_in_memory gr_cells (fun t => gr_plain (gr_value t)) h_gen_result_destroy.
Proof. exact (destroy_rule_sound _ _ _ _ gen_result_destroy_rule). Qed.
Print Assumptions C65_gen_result.

Theorem C66_gen_result :
  forall P, digests_sized P -> independent gr_cells gr_value whole (fits_gen_result P) (h_gen_result_copy P) h_gen_result_destroy.
Proof. exact (fun P Sized => independent_of _ _ _ _ _ _ _ _ _ _ _ _ (gen_result_copy_rule P Sized) gen_result_destroy_rule). Qed.
Print Assumptions C66_gen_result.

Example C64_gen_result_case : lives gr_cells gr_value (fits_gen_result toy).
Proof. exact (witness_in_memory _ _ _ _ gr_witness). Qed.

(* --- the zeroing destroy of a buffer, and the packet a context has parsed *)
Theorem C65_buffer_zero :
  destroys_in_memory buf_cells nothing h_buffer_destroy_zero.
Proof. exact (destroy_rule_sound _ _ _ _ buffer_destroy_zero_rule). Qed.
Print Assumptions C65_buffer_zero.

Theorem C65_ctx_packet :
  destroys_in_memory cp_cells (fun t => cp_plain (cp_value t)) h_ctx_packet_destroy.
Proof. exact (destroy_rule_sound _ _ _ _ ctx_packet_destroy_rule). Qed.
Print Assumptions C65_ctx_packet.

Example C65_ctx_packet_case : lives cp_cells cp_value (fun _ => True).
Proof. exact (witness_in_memory _ _ _ _ cp_witness). Qed.

Theorem C65_node_array_shallow :
  destroys_in_memory (arr_cells (fun _ : hnd => [])) nothing h_node_array_destroy.
Proof. exact (node_array_shallow_sound). Qed.
Print Assumptions C65_node_array_shallow.

Example C64_toy_sized : digests_sized toy.
Proof. exact (fun b => toy_sha SHA256 b). Qed.
