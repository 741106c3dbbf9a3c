(* C57: every copy function returns NULL or an object with the same contents *)
From Verif.Base Require Import Bytes Monad.
From Verif.Model Require Import Buffer Cipher Ecdsa Kdf Prims Engine Fingerprint Identity Node Stream TransportPacket EcdhCipher Handshake Transport Keys Payload Exchange Packet Ctx.
From Verif.Spec Require Import BufferSpec CodecSpec CopySpec.
From Verif.Proofs Require Import BytesFacts CodecFacts EngineFacts CacheFacts KeysFacts ToyPrims ToyObjects ToyTransport CopyFacts.
From Verif.Proofs Require StreamFacts TransportFacts.
Local Open Scope N_scope.

Ltac made := repeat match goal with
  | |- real _ => vm_compute; split; [reflexivity|congruence]
  | |- made_signature _ => vm_compute; split; [reflexivity|congruence]
  | |- _ /\ _ => split
  | |- if_set _ _ => let x := fresh in let E := fresh in intros x E; first [discriminate E|apply Some_inj in E; subst x]
  | |- Forall _ (_ :: _) => constructor
  | |- Forall _ [] => constructor
  end; try (vm_compute; first [congruence|reflexivity]).

(* --- buffers, keys, signatures, cipher results, fingerprints *)
Theorem C57_buffer : copies buffer_copy real /\ never_differs buffer_copy.
Proof. exact (conj (conj eq_refl real_copy) buffer_same). Qed.
Print Assumptions C57_buffer.
Theorem C57_cipher_key : copies cipher_key_copy made_cipher_key /\ never_differs cipher_key_copy.
Proof. exact (conj (conj eq_refl cipher_key_made) key_copy_same). Qed.
Print Assumptions C57_cipher_key.
Theorem C57_cipher_result : copies cipher_result_copy made_cipher_result.
Proof. exact (conj eq_refl cipher_result_made). Qed.
Print Assumptions C57_cipher_result.
Theorem C57_ec_key : copies ec_key_copy made_ec_key /\ never_differs ec_key_copy.
Proof. exact (conj (conj eq_refl ec_key_made) create_same_key). Qed.
Print Assumptions C57_ec_key.
Theorem C57_signature : copies ecdsa_result_copy made_signature /\ never_differs ecdsa_result_copy.
Proof. exact (conj (conj eq_refl signature_made) sig_copy_same). Qed.
Print Assumptions C57_signature.
Theorem C57_kdf : (copies kdf_meta_copy made_kdf_meta /\ never_differs kdf_meta_copy) /\ (copies kdf_result_copy made_kdf_result /\ never_differs kdf_result_copy).
Proof. exact (conj (conj (conj eq_refl kdf_meta_made) kdf_meta_copy_Some) (conj (conj eq_refl kdf_result_made) kdf_result_same)). Qed.
Print Assumptions C57_kdf.
Theorem C57_fingerprint : copies fingerprint_copy made_fingerprint /\ never_differs fingerprint_copy.
Proof. exact (conj (conj eq_refl fingerprint_made) fingerprint_same). Qed.
Print Assumptions C57_fingerprint.
Theorem C57_ecdh_context : copies ecdh_ctx_copy made_ecdh_ctx /\ never_differs ecdh_ctx_copy.
Proof. exact (conj (conj eq_refl ecdh_made) ecdh_same). Qed.
Print Assumptions C57_ecdh_context.

Definition copy_result : cipher_result := {| cr_cipher := AES256_GCM; cr_iv := repeat x01 12; cr_text := Some [x02; x03]; cr_tag := Some (repeat x04 16) |}.
Definition ex_key : ec_key := Eval vm_compute in toy_key 1.
Example C57_ex1 : made_cipher_result copy_result /\ made_cipher_key {| ck_cipher := AES256_CTR; ck_data := repeat x05 32 |} /\
  made_ec_key ex_key /\ made_kdf_meta {| km_algo := KDF_BCRYPT_15; km_salt := Some (repeat x61 22); km_info := None |} /\
  made_kdf_meta {| km_algo := KDF_HKDF_SHA256; km_salt := None; km_info := Some [x61] |}.
Proof.
  split; [split; [split; [reflexivity|exists (repeat x04 16); split; reflexivity]|made]|]. split; [reflexivity|]. split; [unfold made_ec_key, ex_key; cbn [ek_pub ek_pri]; made|].
  split; [split; [made|]; split; [made|exists (repeat x61 22); split; reflexivity]|]. split; [made|]. split; [made|right; discriminate].
Qed.

(* --- identities and nodes *)
Theorem C57_identity : copies identity_copy made_identity /\ copies chain_copy made_chain.
Proof. exact (conj (conj eq_refl identity_made) (conj eq_refl chain_made)). Qed.
Print Assumptions C57_identity.
Theorem C57_node : (copies keypair_copy made_keypair /\ never_differs keypair_copy) /\ copies node_copy made_node /\
  (forall l, made_nodes l -> node_items_copy l = Some l).
Proof. exact (conj (conj (conj eq_refl keypair_made) keypair_same) (conj (conj eq_refl node_made) nodes_made)). Qed.
Print Assumptions C57_node.
Definition copy_node2 : node := Eval vm_compute in toy_node 2.
Definition copy_node3 : node := Eval vm_compute in toy_node 3.
Definition copy_chain : chain := Eval vm_compute in toy_chain 1.
Lemma copy_chain_made : made_chain copy_chain.
Proof. unfold copy_chain, made_chain, made_identity, made_ec_key. cbn [ch_root ch_node ch_cache id_identifier id_key id_signature ek_pub ek_pri]. made. Qed.
Example C57_ex2 : made_node copy_node2 /\ made_nodes [Some copy_node2; None; Some copy_node3].
Proof.
  assert (A : made_node copy_node2).
  { unfold copy_node2, made_node, made_chain, made_identity, made_keypair, made_ec_key.
    cbn [nd_dev_id nd_chain nd_keypair nd_cache ch_root ch_node ch_cache id_identifier id_key id_signature ek_pub ek_pri]. made; unfold made_ec_key; cbn [kp_key kp_signature ek_pub ek_pri]; made. }
  assert (B : made_node copy_node3).
  { unfold copy_node3, made_node, made_chain, made_identity, made_keypair, made_ec_key.
    cbn [nd_dev_id nd_chain nd_keypair nd_cache ch_root ch_node ch_cache id_identifier id_key id_signature ek_pub ek_pri]. made; unfold made_ec_key; cbn [kp_key kp_signature ek_pub ek_pri]; made. }
  split; [exact A|]. constructor; [|constructor; [|constructor; [|constructor]]]; intros x E; [apply Some_inj in E; subst x; exact A|discriminate|apply Some_inj in E; subst x; exact B].
Qed.
(* a signature that is itself ill-formed (no bytes, which no library function makes) is dropped in silence *)
Example C57_hand_made_identity : let x := toy_node_id 1 in
  let y := {| id_type := id_type x; id_identifier := id_identifier x; id_key := id_key x; id_signature := Some {| es_curve := P521; es_digest := SHA512; es_sig := [] |} |} in
  exists z, identity_copy (Some y) = Some z /\ id_signature z = None.
Proof. vm_compute. eexists. split; reflexivity. Qed.

(* --- stored keys and device information *)
Theorem C57_stored_keys : (copies storage_keys_copy made_storage_keys /\ never_differs storage_keys_copy) /\
  (copies root_keys_copy made_root_keys /\ never_differs root_keys_copy) /\ (copies dev_info_copy made_dev_info /\ never_differs dev_info_copy).
Proof.
  exact (conj (conj (conj eq_refl storage_made) storage_same) (conj (conj (conj eq_refl root_keys_made) root_keys_copy_same) (conj (conj eq_refl dev_info_made) dev_copy_same))).
Qed.
Print Assumptions C57_stored_keys.

(* --- messages *)
Theorem C57_messages : copies packet_meta_copy made_packet_meta /\ copies payload_copy made_payload /\ copies key_exchange_copy made_key_exchange /\
  copies exchange_set_copy made_exchange_set /\ (copies packet_copy made_packet /\ never_differs packet_copy) /\ copies parse_result_copy made_parse_result /\
  copies decode_result_copy made_decode_result /\ (copies encoder_result_copy made_encoder_result /\ never_differs encoder_result_copy).
Proof.
  exact (conj (conj eq_refl packet_meta_made) (conj (conj eq_refl payload_made) (conj (conj eq_refl key_exchange_made) (conj (conj eq_refl exchange_set_made)
    (conj (conj (conj eq_refl packet_made) packet_same) (conj (conj eq_refl parse_result_made) (conj (conj eq_refl decode_result_made) (conj (conj eq_refl encoder_result_made) encoder_same)))))))).
Qed.
Print Assumptions C57_messages.
Example C57_ex3 : made_parse_result {| pa_set := Some {| xs_sender := ex_key; xs_items := [Some {| kx_id := [x01]; kx_key_id := 7; kx_text := copy_result |}] |};
  pa_exchange := Some {| kx_id := [x01]; kx_key_id := 7; kx_text := copy_result |}; pa_payload := Some copy_result; pa_status := SIG_VALID; pa_err := E_SUCCESS |}.
Proof.
  assert (A : made_cipher_result copy_result) by apply C57_ex1. unfold made_parse_result, made_exchange_set, made_key_exchange, made_ec_key. cbn [pa_set pa_exchange pa_payload].
  split; [|split]; intros x E; apply Some_inj in E; subst x; [|split; [made|exact A]|exact A].
  split; [unfold ex_key; cbn [xs_sender ek_pub ek_pri]; made|]. constructor; [|constructor]. intros x E. apply Some_inj in E. subst x. split; [made|exact A].
Qed.

(* --- streams and handshakes: the copy of a stream has one owner *)
Theorem C57_streams : (copies stream_key_copy made_stream_key /\ never_differs stream_key_copy) /\ (copies stream_iv_copy made_stream_iv /\ never_differs stream_iv_copy) /\
  (stream_ctx_copy None = None /\ forall c, made_stream_ctx c -> stream_ctx_copy (Some c) = Some (one_owner c)).
Proof. exact (conj (conj (conj eq_refl stream_key_made) TransportFacts.stream_key_copy_same) (conj (conj (conj eq_refl stream_iv_made) StreamFacts.iv_copy_ok) (conj eq_refl stream_ctx_made))). Qed.
Print Assumptions C57_streams.
Theorem C57_handshake_keys : (copies root_key_copy made_root_key /\ never_differs root_key_copy) /\ (copies handshake_res_copy made_handshake_res /\ never_differs handshake_res_copy).
Proof. exact (conj (conj (conj eq_refl root_key_made) root_key_same) (conj (conj eq_refl handshake_res_made) handshake_res_same)). Qed.
Print Assumptions C57_handshake_keys.

(* --- transport packets and handshakes: all but the received bytes of a packet *)
Theorem C57_transport_packet_partial : tpacket_copy None = None /\ forall p, made_tpacket p -> tpacket_copy (Some p) = Some (detached p).
Proof. exact (conj eq_refl tpacket_made). Qed.
Print Assumptions C57_transport_packet_partial.
Theorem C57_handshake_partial : handshake_copy None = None /\
  forall h, made_handshake h -> handshake_copy (Some h) = Some (with_pending (option_map detached (hs_pending h)) h).
Proof. exact (conj eq_refl handshake_made). Qed.
Print Assumptions C57_handshake_partial.
Theorem C57_transport_packet_refuted : exists p q, made_tpacket p /\ tpacket_copy (Some p) = Some q /\ tp_network p = Some [x61] /\ tp_network q = None.
Proof.
  exists {| tp_network := Some [x61]; tp_body := [x62]; tp_mac := Some [x63]; tp_meta := meta_data 1 MAC_NONE |}. eexists. unfold made_tpacket.
  split; [made|]. vm_compute. auto.
Qed.
Print Assumptions C57_transport_packet_refuted.

(* --- a transport: its identities, streams and status, but neither its handshake nor its error *)
Theorem C57_transport_partial : transport_copy None = None /\ forall c r, made_transport c -> tc_remote c = Some r ->
  transport_copy (Some c) = Some {| tc_local := tc_local c; tc_remote := Some r; tc_tx := option_map one_owner (tc_tx c); tc_rx := option_map one_owner (tc_rx c);
                                    tc_handshake := None; tc_status := tc_status c; tc_evo := tc_evo c; tc_err := E_NONE |}.
Proof. exact (conj eq_refl transport_made). Qed.
Print Assumptions C57_transport_partial.
(* the copy of a transport that has sent its first handshake packet can never finish the handshake *)
Theorem C57_transport_refuted : let c := fst (tr tp0 TStart 1000%nat) in
  exists d, transport_copy (Some c) = Some d /\ tc_status d = T_INITIAL_HANDSHAKE /\ tc_handshake c <> None /\ tc_handshake d = None.
Proof. vm_compute. eexists. split; [reflexivity|]. split; [reflexivity|]. split; [discriminate|reflexivity]. Qed.
Print Assumptions C57_transport_refuted.
Definition ex_transport : transport := {| tc_local := copy_chain; tc_remote := Some copy_chain; tc_tx := None;
  tc_rx := Some {| sc_key := {| sk_cipher := {| ck_cipher := AES256_GCM; ck_data := repeat x05 32 |}; sk_evo := repeat x06 32; sk_ppe := 3; sk_user := None |};
                   sc_last := 9; sc_dir := DECODE; sc_iv := None; sc_refs := 2 |};
  tc_handshake := None; tc_status := T_ACTIVE; tc_evo := 3; tc_err := E_NONE |}.
Example C57_ex4 : made_transport ex_transport.
Proof.
  split; [exact copy_chain_made|]. split; [intros x E; apply Some_inj in E; subst x; exact copy_chain_made|]. split; [made|].
  intros x E. apply Some_inj in E. subst x. split; [|split; [made|discriminate]]. split; [reflexivity|]. split; [made|]. split; [vm_compute; split; congruence|made].
Qed.

(* --- contexts: every context the library makes, whatever packet version its user sets *)
Theorem C57_context : forall P i c s x v, made_dev_info i -> made_chain c -> made_storage_keys s -> ctx_create P (Some i) (Some c) (Some s) = Some x ->
  ctx_copy P (Some (set_version v x)) = Val (set_version v x).
Proof. exact ctx_made. Qed.
Print Assumptions C57_context.
Theorem C57_generation_result : forall P i c s x v k rk, made_dev_info i -> made_chain c -> made_storage_keys s -> ctx_create P (Some i) (Some c) (Some s) = Some x ->
  made_cipher_key k -> made_root_keys rk ->
  let g := {| gr_ctx := set_version v x; gr_recovery_key := k; gr_root_keys := rk |} in gen_result_copy P (Some g) = Val g.
Proof. exact gen_result_made. Qed.
Print Assumptions C57_generation_result.
Example C57_ex5 : let i := {| di_dev_salt := [x01]; di_system_salt := Some [x02]; di_msg_proto_id := [x03]; di_srv_comm_id := [x04] |} in
  let s := {| sk_local := {| ck_cipher := AES256_GCM; ck_data := repeat x05 32 |}; sk_remote := {| ck_cipher := AES256_GCM; ck_data := repeat x06 32 |} |} in
  made_dev_info i /\ made_chain copy_chain /\ made_storage_keys s /\ ctx_create toy (Some i) (Some copy_chain) (Some s) <> None.
Proof.
  cbv zeta. split; [split; [made|]; split; [exists [x02]; split; [reflexivity|made]|]; split; made|]. split; [exact copy_chain_made|].
  split; [unfold made_storage_keys, made_cipher_key; made|]. vm_compute. discriminate.
Qed.
