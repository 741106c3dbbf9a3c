(* C58: deserializers are memory safe and give well-formed objects *)
From Verif.Base Require Import Bytes Monad.
From Verif.Model Require Import Buffer Cipher Ecdsa Kdf Prims Engine Proto Identity Node Stream TransportPacket EcdhCipher Handshake Transport Keys Payload Exchange Packet Ctx.
From Verif.Spec Require Import BufferSpec CodecSpec CopySpec.
From Verif.Proofs Require Import BytesFacts CodecFacts ToyPrims ToyObjects ParserFacts.
From Verif.Proofs Require CtxSafety.
From Verif.Props Require PropsMessage.
Local Open Scope N_scope.

(* --- fixed binary formats *)
Theorem C58_cipher_objects : parses cipher_result_from_buffer made_cipher_result /\ parses cipher_key_from_buffer made_cipher_key.
Proof. exact (conj result_parses key_parses). Qed.
Print Assumptions C58_cipher_objects.
Theorem C58_signature : parses ecdsa_result_create_from_buffer made_signature.
Proof. exact sig_parses. Qed.
Print Assumptions C58_signature.
Theorem C58_kdf_parameters : parses kdf_meta_create_with_buffer made_kdf_meta /\ forall b, kdf_meta_size_with_buffer b <> UB.
Proof. exact (conj kdf_parses kdf_size_safe). Qed.
Print Assumptions C58_kdf_parameters.
Theorem C58_packet : parses packet_create_from_buffer made_packet.
Proof. exact packet_parses. Qed.
Print Assumptions C58_packet.
Theorem C58_transport_packet : parses tpacket_create_from_buffer (fun p => made_tpacket p /\ if_set real (tp_network p)).
Proof. exact tpacket_parses. Qed.
Print Assumptions C58_transport_packet.

(* --- protobuf messages, for every behaviour of the elliptic curve library *)
Theorem C58_ec_key : forall P b private k, ec_key_import P b private = Some k -> made_ec_key k.
Proof. exact import_made. Qed.
Print Assumptions C58_ec_key.
Theorem C58_identities : forall P, parses (identity_create_from_buffer P) made_identity /\ parses (chain_create_from_buffer P) made_chain /\
  parses (keypair_create_from_buffer P) made_keypair /\ parses (node_create_from_buffer P) made_node.
Proof. exact (fun P => conj (identity_parses P) (conj (chain_parses P) (conj (keypair_parses P) (node_parses P)))). Qed.
Print Assumptions C58_identities.
Theorem C58_stored_keys : forall P, parses storage_keys_create_from_buffer made_storage_keys /\ parses (root_keys_create_from_buffer P) made_root_keys /\
  parses stream_key_create_from_buffer made_stream_key.
Proof. exact (fun P => conj storage_parses (conj (root_keys_parses P) stream_key_parses)). Qed.
Print Assumptions C58_stored_keys.
Theorem C58_message_parts : forall P, parses (fun b => lift (payload_create_from_buffer b)) made_payload /\
  parses (exchange_set_create_from_buffer P) (fun s => made_exchange_set s /\ all_set s).
Proof. exact (fun P => conj payload_parses (set_parses P)). Qed.
Print Assumptions C58_message_parts.
Theorem C58_context : forall P i b, ctx_create_from_buffer P i b <> UB /\
  forall x, ctx_create_from_buffer P i b = Val x -> made_chain (cx_chain x) /\ made_storage_keys (cx_storage x) /\ made_cipher_key (cx_header_key x) /\ i = Some (cx_dev x).
Proof. exact (fun P i b => conj (CtxSafety.ctx_parse_safe P i b) (ctx_parsed P i b)). Qed.
Print Assumptions C58_context.

(* --- non-vacuity: each parser accepts something *)
Definition accepts {A} (r : res A) : bool := match r with Val _ => true | _ => false end.
Example C58_ex1 : accepts (cipher_result_from_buffer (Some (x00 :: repeat x01 28 ++ [x02])%list)) && accepts (cipher_key_from_buffer (Some (x01 :: repeat x02 32))) &&
  accepts (ecdsa_result_create_from_buffer (Some [x03; x01; x00; x30; x31])) && accepts (kdf_meta_create_with_buffer (Some (x01 :: repeat x05 16))) &&
  accepts (packet_create_from_buffer (Some PropsMessage.demo_wire)) && accepts (tpacket_create_from_buffer (Some (x10 :: repeat x00 8 ++ [x41])%list)) = true.
Proof. vm_compute. reflexivity. Qed.
Example C58_ex2 : accepts (node_create_from_buffer toy (node_serialize (Some (toy_node 2)))) && accepts (chain_create_from_buffer toy (chain_serialize (Some (toy_chain 1)))) &&
  accepts (lift (payload_create_from_buffer (payload_serialize (Some PropsMessage.demo_payload)))) = true.
Proof. vm_compute. reflexivity. Qed.
