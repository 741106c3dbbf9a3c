(* C27, C28: transport packets *)
From Verif.Base Require Import Bytes Monad.
From Verif.Model Require Import Buffer Cipher Ecdsa Prims Engine Identity TransportPacket.
From Verif.Spec Require Import BufferSpec CodecSpec IdentitySpec TransportSpec.
From Verif.Proofs Require Import BytesFacts CodecFacts ToyPrims ToyObjects TransportPacketFacts.
Local Open Scope N_scope.

(* C27: round trip, and the reverse for every byte string *)
Theorem C27_packet_roundtrip : forall p b, good_tpacket p -> tpacket_serialize p = Some b ->
  b = packet_wire p /\ exists q, tpacket_create_from_buffer (Some b) = Val q /\ same_packet p q.
Proof. exact packet_roundtrip. Qed.
Print Assumptions C27_packet_roundtrip.
Theorem C27_packet_serializes : forall p, good_meta (tp_meta p) -> blen (packet_wire p) <= library_limit -> tpacket_serialize p = Some (packet_wire p).
Proof. exact packet_serialize_ok. Qed.
Print Assumptions C27_packet_serializes.
Theorem C27_parsed_packet_reserializes : forall b q, tpacket_create_from_buffer (Some b) = Val q -> good_tpacket q /\ tpacket_serialize q = Some b.
Proof. exact packet_reserialize. Qed.
Print Assumptions C27_parsed_packet_reserializes.
Theorem C27_parse_defined : forall b, tpacket_create_from_buffer b <> UB.
Proof. exact packet_parse_safe. Qed.
Print Assumptions C27_parse_defined.

Definition toy_tpacket : tpacket := {| tp_network := None; tp_body := [x68; x69]; tp_mac := None; tp_meta := meta_data 513 MAC_NONE |}.
Definition toy_signed : tpacket := snd (val (false, toy_tpacket) (tpacket_sign toy toy_tpacket (toy_chain 1) 50%nat)).
Example C27_case : good_tpacket toy_tpacket /\ good_tpacket toy_signed /\
  tpacket_serialize toy_tpacket = Some [x10; x01; x02; x00; x00; x00; x00; x00; x00; x68; x69] /\
  tpacket_create_from_buffer (Some [x00; x01; x00; x00; x00; x00; x00; x00; x00; x00]) = Null.
Proof.
  split; [|split; [|split; vm_compute; reflexivity]].
  - split; [split; vm_compute; reflexivity|]. split; [discriminate|reflexivity].
  - split; [split; vm_compute; reflexivity|]. split; [vm_compute; discriminate|]. exists (oval [] (tp_mac toy_signed)). split; vm_compute; reflexivity.
Qed.

(* C28: a packet signed by a node key of the engine verifies, before and after transport, for
   whoever has a valid chain with that node key *)
Theorem C28_signed_packet_verifies : forall P c s p p' s', ec_ok P -> gen_ok P -> sign_ok P -> engine_key P (id_key (ch_node c)) ->
  good_meta (tp_meta p) -> tp_body p <> [] -> tp_mac p = None -> tpacket_sign P p c s = (Val (true, p'), s') ->
  exists b, tpacket_serialize p' = Some b /\ tp_network p' = Some b /\
  exists q, tpacket_create_from_buffer (Some b) = Val q /\ tp_meta q = {| tm_body := tm_body (tp_meta p); tm_mac := MAC_EC_P521 |} /\ tp_body q = tp_body p /\
  forall d, pub_of (ch_node d) = pub_of (ch_node c) -> fst (chain_validate P d) = true ->
    fst (fst (tpacket_verify P q d)) = Val true /\ fst (fst (tpacket_verify P p' d)) = Val true.
Proof. exact signed_verifies. Qed.
Print Assumptions C28_signed_packet_verifies.
(* every byte string that parses and verifies: all bytes but the last 143 are what the node key signed *)
Theorem C28_signature_covers_all_bytes : forall P b q d, tpacket_create_from_buffer (Some b) = Val q -> fst (fst (tpacket_verify P q d)) = Val true ->
  fst (chain_validate P d) = true /\
  exists content mac sg, b = (content ++ mac)%list /\ length mac = 143%nat /\ ecdsa_result_create_from_buffer (Some mac) = Val sg /\
    ec_verify P (Some sg) (Some (id_key (ch_node d))) (Some content) = true.
Proof. exact verified_covers. Qed.
Print Assumptions C28_signature_covers_all_bytes.
Theorem C28_copy_verifies_alike : forall P q b c d, tpacket_create_from_buffer (Some b) = Val q -> tpacket_copy (Some q) = Some c ->
  same_packet q c /\ fst (fst (tpacket_verify P c d)) = fst (fst (tpacket_verify P q d)).
Proof. exact copy_verifies. Qed.
Print Assumptions C28_copy_verifies_alike.
Example C28_case : tpacket_sign toy toy_tpacket (toy_chain 1) 50%nat = (Val (true, toy_signed), 51%nat) /\ fst (chain_validate toy (toy_chain 1)) = true /\
  fst (fst (tpacket_verify toy toy_signed (public_chain (toy_chain 1)))) = Val true /\
  fst (fst (tpacket_verify toy toy_signed (public_chain (toy_chain 2)))) = Val false.
Proof. vm_compute. repeat split. Qed.
(* signing a packet again covers the old signature too, and the packet does not verify *)
Theorem C28_signed_again_refuted : exists P c s p p' p'' s1 s2, ec_ok P /\ gen_ok P /\ sign_ok P /\ fst (chain_validate P c) = true /\
  tpacket_sign P p c s = (Val (true, p'), s1) /\ tpacket_sign P p' c s1 = (Val (true, p''), s2) /\ fst (fst (tpacket_verify P p'' c)) = Val false.
Proof.
  exists toy, (toy_chain 1), 50%nat, toy_tpacket, toy_signed, (snd (val (false, toy_tpacket) (tpacket_sign toy toy_signed (toy_chain 1) 51%nat))), 51%nat, 52%nat.
  split; [exact toy_ec|]. split; [exact toy_gen|]. split; [exact toy_sign|]. vm_compute. repeat split.
Qed.
Print Assumptions C28_signed_again_refuted.
