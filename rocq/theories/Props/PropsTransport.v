(* C29-C33 and C61: handshakes and transport contexts. *)
From Verif.Base Require Import Bytes Monad.
From Verif.Model Require Import Cipher Ecdsa Prims Engine Identity Stream TransportPacket EcdhCipher Handshake Transport.
From Verif.Spec Require Import BufferSpec CodecSpec EngineSpec IdentitySpec StreamSpec TransportSpec HandshakeSpec.
From Verif.Proofs Require Import BytesFacts HandshakeFacts TransportFacts AgreementFacts EndToEnd SafetyFacts ToyPrims ToyObjects ToyTransport.
Local Open Scope N_scope.

(* C29: both ends cut their keys out of the same derived bytes: x for the initiator's sending
   direction, y for the other *)
Theorem C29_both_ends_agree : forall P a b ra rb ea eb h0 g0 w1 w2 ki kr,
  ec_ok P -> gen_ok P -> ecdh_ok P -> sign_ok P -> ctr_ok P -> aead_ok P -> rand_ok P ->
  good_chain P a -> good_chain P b -> engine_key P (id_key (ch_node a)) -> engine_key P (id_key (ch_node b)) ->
  handshake_create (Some a) ra ea = Some h0 -> handshake_create (Some b) rb eb = Some g0 -> eb < 2 ^ 32 -> knows ra b -> knows rb a ->
  handshake_run P h0 g0 w1 w2 ki kr ->
  exists n secret x y, p_rand P n 32 = Some secret /\
    p_hkdf P SHA512 (p_sha P SHA512 (w1 ++ w2)) secret str_sender 64 = Some x /\
    p_hkdf P SHA512 (p_sha P SHA512 (w1 ++ w2)) secret str_receiver 64 = Some y /\
    hr_local ki = direction_key x eb /\ hr_remote kr = direction_key x eb /\
    hr_remote ki = direction_key y eb /\ hr_local kr = direction_key y eb.
Proof.
  exact (fun P a b ra rb ea eb h0 g0 w1 w2 ki kr A B C D E F G H I J K L M N O Q R =>
    match handshake_agreement P a b ra rb ea eb h0 g0 w1 w2 ki kr A B C D E F G H I J K L M N O Q R with
    | ex_intro _ n (ex_intro _ s (ex_intro _ x (ex_intro _ y (conj p (conj q (conj r (conj t (conj u (conj v w))))))))) =>
        ex_intro _ n (ex_intro _ s (ex_intro _ x (ex_intro _ y (conj p (conj q (conj r (conj t (conj w (conj u v)))))))))
    end).
Qed.
Print Assumptions C29_both_ends_agree.
Theorem C29_directions_differ : str_sender <> str_receiver.
Proof. discriminate. Qed.
Print Assumptions C29_directions_differ.
(* and so do two transport contexts that became active *)
Theorem C29_contexts_agree : forall P a b ra rb ea eb ca cb w1 w2 ca' cb',
  ec_ok P -> gen_ok P -> ecdh_ok P -> sign_ok P -> ctr_ok P -> aead_ok P -> rand_ok P -> hkdf_ok P ->
  good_chain P a -> good_chain P b -> engine_key P (id_key (ch_node a)) -> engine_key P (id_key (ch_node b)) ->
  transport_create (Some a) ra ea = Some ca -> transport_create (Some b) rb eb = Some cb -> knows ra b -> knows rb a ->
  connected P ca cb w1 w2 ca' cb' ->
  tc_handshake ca' = None /\ tc_handshake cb' = None /\
  exists x y, good_stream_key x /\ good_stream_key y /\ fresh_streams P ca' x y /\ fresh_streams P cb' y x.
Proof. exact contexts_agree. Qed.
Print Assumptions C29_contexts_agree.
Example C29_case : good_chain toy (toy_chain 1) /\ good_chain toy (toy_chain 2) /\
  engine_key toy (id_key (ch_node (toy_chain 1))) /\ engine_key toy (id_key (ch_node (toy_chain 2))) /\
  handshake_create (Some (toy_chain 1)) None 3 = Some th0 /\ handshake_create (Some (toy_chain 2)) None 2 = Some tg0 /\
  (exists ki kr, handshake_run toy th0 tg0 hw1 hw2 ki kr /\ hr_local ki = hr_remote kr /\ hr_remote ki = hr_local kr /\ hr_local ki <> hr_remote ki) /\
  transport_create (Some (toy_chain 1)) None 3 = Some ta0 /\ transport_create (Some (toy_chain 2)) None 2 = Some tb0 /\
  connected toy ta0 tb0 tw1 tw2 (fst ta3) (fst tb1).
Proof.
  split; [exact (proj1 toy_chain_good)|]. split; [exact (proj2 toy_chain_good)|]. split; [exact (proj1 toy_node_key)|]. split; [exact (proj2 toy_node_key)|].
  split; [reflexivity|]. split; [reflexivity|]. split; [|split; [reflexivity|]; split; [reflexivity|exact toy_connected]].
  exists (oval no_keys (snd th4)), (oval no_keys (snd tg3)). split; [exact toy_handshake_run|]. split; [vm_compute; reflexivity|]. split; [vm_compute; reflexivity|]. vm_compute. discriminate.
Qed.

(* C30: without a known remote identity, keys come only after the user accepted an identity that
   signed a packet of this handshake *)
Theorem C30_keys_only_after_acceptance : forall P l evo h0 hist h s h' out, sha_ok P -> handshake_create l None evo = Some h0 -> hreach P h0 hist h ->
  hstep P h HFinalize s = Val (h', out) -> ho_keys out <> None -> identity_accepted P hist.
Proof. exact keys_after_acceptance. Qed.
Print Assumptions C30_keys_only_after_acceptance.
Theorem C30_complete_only_after_acceptance : forall P l evo h0 hist h, sha_ok P -> handshake_create l None evo = Some h0 -> hreach P h0 hist h ->
  hs_status h = H_COMPLETE -> identity_accepted P hist.
Proof. exact complete_after_acceptance. Qed.
Print Assumptions C30_complete_only_after_acceptance.
(* a packet that no expected sender signed makes the handshake fail, for good *)
Theorem C30_bad_signature_fails : forall P h p s h' out, hstep P h (HProcess (Some p)) s = Val (h', out) ->
  (forall c, expected_sender P h p c -> ~ verified_by P p c) -> hs_status h' = H_FAILED /\ ho_packet out = None /\ ho_asked out = None.
Proof. exact bad_signature_fails. Qed.
Print Assumptions C30_bad_signature_fails.
Theorem C30_failure_is_final : forall P h o s h' out, hs_status h = H_FAILED -> hstep P h o s = Val (h', out) ->
  hs_status h' = H_FAILED /\ ho_packet out = None /\ ho_asked out = None /\ ho_keys out = None.
Proof. exact failed_stays. Qed.
Print Assumptions C30_failure_is_final.
(* the responder of C29_case, whose user was asked and accepted, gets keys; the initiator's packet
   with one byte changed fails *)
Definition toy_spoiled : tpacket := parsed (match rev hw1 with a :: l => rev (n2b (N.lxor (b2n a) 1) :: l) | [] => [] end).
Example C30_case : hreach toy tg0 (fst toy_hhist) (snd toy_hhist) /\
  (exists h' out, hstep toy (snd toy_hhist) HFinalize 0%nat = Val (h', out) /\ ho_keys out <> None /\ hs_status h' = H_COMPLETE) /\
  exists h' out, hstep toy tg0 (HProcess (Some toy_spoiled)) 5%nat = Val (h', out) /\ hs_status h' = H_FAILED.
Proof.
  split; [apply hrun_reach with (ops := toy_hops); rewrite toy_hhist_eq; destruct toy_hhist; reflexivity|]. split.
  - exists (fst tg3), {| ho_packet := None; ho_asked := None; ho_keys := snd tg3 |}. split; [vm_compute; reflexivity|]. split; [discriminate|reflexivity].
  - set (r := rval (tg0, {| ho_packet := None; ho_asked := None; ho_keys := None |}) (hstep toy tg0 (HProcess (Some toy_spoiled)) 5%nat)).
    exists (fst r), (snd r). split; vm_compute; reflexivity.
Qed.

(* C31: data goes to the user only in the state ACTIVE; what goes to the network in another state is
   a handshake packet and does not come from a send *)
Theorem C31_data_only_when_active : forall P l pinned evo c0 hist c o s c' ev,
  sha_ok P -> copyable pinned -> transport_create l pinned evo = Some c0 -> reach P c0 hist c -> fst (transport_step P c o s) = Val (c', ev) ->
  (forall d, In (EvRx d) ev -> tc_status c = T_ACTIVE /\ exists b answer pad, o = TReceive (Some b) answer pad) /\
  (forall b, In (EvTx b) ev ->
     (exists d, o = TSend (Some d)) /\ tc_status c = T_ACTIVE \/
     (forall d, o <> TSend d) /\ tc_status c <> T_ACTIVE /\ handshake_bytes b).
Proof. exact data_only_active. Qed.
Print Assumptions C31_data_only_when_active.
(* and ACTIVE means that an accepted identity signed a packet received before *)
Theorem C31_active_is_authenticated : forall P l pinned evo c0 hist c,
  sha_ok P -> copyable pinned -> transport_create l pinned evo = Some c0 -> reach P c0 hist c -> tc_status c = T_ACTIVE -> peer_authenticated P pinned hist.
Proof. exact active_authenticated. Qed.
Print Assumptions C31_active_is_authenticated.
(* a context that becomes active has new streams, with keys from the handshake *)
Theorem C31_active_has_new_streams : forall P l pinned evo c0 hist c o s c' ev,
  sha_ok P -> copyable pinned -> transport_create l pinned evo = Some c0 -> reach P c0 hist c -> fst (transport_step P c o s) = Val (c', ev) ->
  In (EvState T_ACTIVE) ev -> tc_handshake c' = None /\ exists ks kr, good_stream_key ks /\ good_stream_key kr /\ fresh_streams P c' ks kr.
Proof. exact fresh_when_active. Qed.
Print Assumptions C31_active_has_new_streams.
(* one context with a known remote identity and one without become active, one of them delivers data *)
Definition toy_hist_b : list (top * list tevent) := (TReceive (Some tw1) (Some true) 0, snd tb1) :: fst toy_hb.
Example C31_case : copyable None /\ copyable (Some (public_chain (toy_chain 1))) /\
  reach toy tb0 toy_hist_b (snd toy_hb) /\ delivered toy_hist_b = [[x68; x69]; [x7a]] /\
  reach toy tp0 [(TReceive (Some tw1) None 0, snd tp1)] (fst tp1) /\ tc_status (fst tp1) = T_ACTIVE.
Proof.
  split; [exact I|]. split. { exists (oval (toy_chain 0) (chain_copy (Some (public_chain (toy_chain 1))))). split; [vm_compute; reflexivity|]. split; vm_compute; reflexivity. }
  split. { apply (reach_cons toy tb0 _ 2000%nat (fst tb1)); [rewrite tb1_eq; destruct tb1; reflexivity|]. apply trun_reach with (ops := toy_recvs). rewrite toy_hb_eq. destruct toy_hb; reflexivity. }
  split; [vm_compute; reflexivity|]. split; [|reflexivity].
  apply (reach_cons toy tp0 _ 2000%nat (fst tp1)); [rewrite tp1_eq; destruct tp1; reflexivity|apply reach_nil].
Qed.

(* C32: "once in the state ERROR, no call leaves it": false, a late answer about an identity does *)
Theorem C32_error_absorbing_refuted : ~ (forall P l pinned evo c0 hist c hist' c',
  sha_ok P -> transport_create l pinned evo = Some c0 -> reach P c0 hist c -> tc_status c = T_ERROR -> reach P c hist' c' -> tc_status c' = T_ERROR).
Proof.
  set (before := [(TReceive (Some tw1) None 0, 2000%nat); (TSend (Some [x68]), 0%nat)]).
  set (x := rval ([], ta0) (trun toy tb0 before)). set (y := rval ([], ta0) (trun toy (snd x) [(TAnswer true, 3000%nat)])).
  intros H. assert (A : tc_status (snd y) = T_ERROR); [|vm_compute in A; discriminate A].
  apply (H toy (Some (toy_chain 2)) None 2 tb0 (fst x) (snd x) (fst y) (snd y) toy_sha); [reflexivity| |vm_compute; reflexivity|].
  - apply trun_reach with (ops := before). vm_compute. reflexivity.
  - apply trun_reach with (ops := [(TAnswer true, 3000%nat)]). vm_compute. reflexivity.
Qed.
Print Assumptions C32_error_absorbing_refuted.
(* true unless a question about an identity is open and is answered yes: the state stays, and
   nothing is delivered, sent or asked *)
Theorem C32_error_absorbing_partial : forall P c hist c', tc_status c = T_ERROR -> reach P c hist c' ->
  (forall ev, ~ In (TAnswer true, ev) hist) \/ handshake_status (tc_handshake c) <> H_PENDING_VERIFICATION ->
  tc_status c' = T_ERROR /\ events hist = [] /\
  (handshake_status (tc_handshake c) <> H_PENDING_VERIFICATION -> handshake_status (tc_handshake c') <> H_PENDING_VERIFICATION).
Proof. exact error_absorbs. Qed.
Print Assumptions C32_error_absorbing_partial.
(* no question is ever open when the remote identity is given at creation *)
Theorem C32_pinned_never_asks_partial : forall P l r evo c0 hist c, sha_ok P -> copyable (Some r) -> transport_create l (Some r) evo = Some c0 ->
  reach P c0 hist c -> handshake_status (tc_handshake c) <> H_PENDING_VERIFICATION.
Proof. exact pinned_not_pending. Qed.
Print Assumptions C32_pinned_never_asks_partial.
(* the context of C31_case fails on its last packet, which comes too late; then it stays failed *)
Example C32_case : tc_status (snd toy_hb) = T_ERROR /\ handshake_status (tc_handshake (snd toy_hb)) <> H_PENDING_VERIFICATION /\
  exists c', reach toy (snd toy_hb) [(TAnswer true, []); (TSend (Some [x68]), []); (TReceive (Some tw1) (Some true) 0, []); (TStart, [])] c' /\ tc_status c' = T_ERROR.
Proof.
  split; [reflexivity|]. split; [discriminate|].
  set (ops := [(TAnswer true, 1%nat); (TSend (Some [x68]), 2%nat); (TReceive (Some tw1) (Some true) 0, 3%nat); (TStart, 4%nat)]).
  exists (snd (rval ([], ta0) (trun toy (snd toy_hb) ops))). split; [|vm_compute; reflexivity].
  apply trun_reach with (ops := ops). vm_compute. reflexivity.
Qed.

(* C33: with the same key at both ends, and no forgery among the packets received *)
Theorem C33_delivered_in_order : forall P k q q' ca ha ca' cb hb cb', hmac_ok P -> ctr_ok P -> aead_ok P -> good_stream_key k ->
  tc_status ca = T_ACTIVE -> tc_handshake ca = None -> fresh_streams P ca k q -> reach P ca ha ca' ->
  tc_status cb = T_ACTIVE -> tc_handshake cb = None -> fresh_streams P cb q' k -> reach P cb hb cb' ->
  no_forgery P ha hb -> subsequence (delivered hb) (sent_data ha).
Proof. exact messages_arrive_in_order. Qed.
Print Assumptions C33_delivered_in_order.
(* from the creation of both contexts on, in both directions *)
Theorem C33_connected_contexts : forall P a b ra rb ea eb ca cb w1 w2 ca' cb' ha ca2 hb cb2,
  ec_ok P -> gen_ok P -> ecdh_ok P -> sign_ok P -> ctr_ok P -> aead_ok P -> rand_ok P -> hkdf_ok P -> hmac_ok P ->
  good_chain P a -> good_chain P b -> engine_key P (id_key (ch_node a)) -> engine_key P (id_key (ch_node b)) ->
  transport_create (Some a) ra ea = Some ca -> transport_create (Some b) rb eb = Some cb -> knows ra b -> knows rb a ->
  connected P ca cb w1 w2 ca' cb' -> reach P ca' ha ca2 -> reach P cb' hb cb2 ->
  (no_forgery P ha hb -> subsequence (delivered hb) (sent_data ha)) /\
  (no_forgery P hb ha -> subsequence (delivered ha) (sent_data hb)).
Proof. exact messages_end_to_end. Qed.
Print Assumptions C33_connected_contexts.
(* three messages sent, the network swaps the last two: the first and the third arrive *)
Example C33_case : connected toy ta0 tb0 tw1 tw2 (fst ta3) (fst tb1) /\ reach toy (fst ta3) (fst toy_ha) (snd toy_ha) /\
  reach toy (fst tb1) (fst toy_hb) (snd toy_hb) /\ no_forgery toy (fst toy_ha) (fst toy_hb) /\
  sent_data (fst toy_ha) = [[x68; x69]; [x79; x6f]; [x7a]] /\ delivered (fst toy_hb) = [[x68; x69]; [x7a]].
Proof.
  split; [exact toy_connected|]. split. { apply trun_reach with (ops := toy_sends). rewrite toy_ha_eq. destruct toy_ha; reflexivity. }
  split. { apply trun_reach with (ops := toy_recvs). rewrite toy_hb_eq. destruct toy_hb; reflexivity. }
  split; [apply faithfulb_ok; vm_compute; reflexivity|]. split; vm_compute; reflexivity.
Qed.

(* C61: "no packet makes a context misuse memory": false, two contexts that both start are enough:
   the first reads the other's opening packet as the answer to its own *)
Theorem C61_transport_memory_safe_refuted : ~ (forall P l pinned evo c0 hist c o s,
  sha_ok P -> rand_ok P -> transport_create l pinned evo = Some c0 -> reach P c0 hist c -> fst (transport_step P c o s) <> UB).
Proof.
  intros H. apply (H toy (Some (toy_chain 1)) None 3 ta0 [(TStart, snd ta1)] (fst ta1) (TReceive (Some (first_tx (snd (tr tb0 TStart 2000%nat)))) (Some true) 0) 3000%nat toy_sha toy_rand).
  - reflexivity.
  - apply (reach_cons toy ta0 _ 1000%nat (fst ta1)); [rewrite ta1_eq; destruct ta1; reflexivity|apply reach_nil].
  - vm_compute. reflexivity.
Qed.
Print Assumptions C61_transport_memory_safe_refuted.
(* nothing else does: every other call on every reachable context is defined *)
Theorem C61_only_a_wrong_variant_partial : forall P l pinned evo c0 hist c o s,
  rand_ok P -> sha_ok P -> copyable pinned -> transport_create l pinned evo = Some c0 -> reach P c0 hist c ->
  ~ wrong_variant c o -> fst (transport_step P c o s) <> UB.
Proof. exact only_wrong_variant. Qed.
Print Assumptions C61_only_a_wrong_variant_partial.
(* the answer a started context waits for is not of the wrong kind; a started context gets one *)
Example C61_case : reach toy ta0 [(TStart, snd ta1)] (fst ta1) /\ ~ wrong_variant (fst ta1) (TReceive (Some tw2) (Some true) 0) /\
  wrong_variant (fst ta1) (TReceive (Some tw1) (Some true) 0).
Proof.
  split; [apply (reach_cons toy ta0 _ 1000%nat (fst ta1)); [rewrite ta1_eq; destruct ta1; reflexivity|apply reach_nil]|]. split.
  - intros (b & a & pad & p & m & E & Pb & Pm & W). injection E as <- <- <-.
    assert (Q : tpacket_create_from_buffer (Some tw2) = Val (parsed tw2)) by (vm_compute; reflexivity). rewrite Q in Pb. apply Val_inj in Pb. subst p.
    assert (R : match handshake_from_packet (parsed tw2) with Some (PResponse _) => true | _ => false end = true) by (vm_compute; reflexivity). rewrite Pm in R.
    destruct m; [discriminate|discriminate|]. exact W.
  - exists tw1, (Some true), 0, (parsed tw1), (oval PNone (handshake_from_packet (parsed tw1))). split; [reflexivity|]. split; [vm_compute; reflexivity|]. split; [vm_compute; reflexivity|]. vm_compute. exact I.
Qed.
