(* Vocabulary for transports. *)
From Verif.Base Require Import Bytes Monad.
From Verif.Model Require Import Cipher Ecdsa Prims Engine Identity Stream TransportPacket.
From Verif.Spec Require Import BufferSpec CodecSpec IdentitySpec.
Local Open Scope N_scope.

(* --- packets *)
(* the bytes before the body *)
Definition meta_wire (m : tmeta) : bytes :=
  match tm_body m with
  | Handshake v f => n2b (tm_mac m) :: n2b v :: le_enc 8 f
  | Ciphertext seq => n2b (16 + tm_mac m) :: le_enc 8 seq
  end.
Definition good_meta (m : tmeta) : Prop :=
  tm_mac m < 16 /\ match tm_body m with Handshake v f => v < 256 /\ f < 2 ^ 64 | Ciphertext seq => seq < 2 ^ 64 end.
(* a body, and a signature of 143 bytes exactly when the MAC type says so *)
Definition good_tpacket (p : tpacket) : Prop :=
  good_meta (tp_meta p) /\ tp_body p <> [] /\
  (if tm_mac (tp_meta p) =? MAC_EC_P521 then exists m, tp_mac p = Some m /\ length m = 143%nat else tp_mac p = None).
(* the packet, whether or not its bytes on the network are remembered *)
Definition same_packet (p q : tpacket) : Prop := tp_meta p = tp_meta q /\ tp_body p = tp_body q /\ tp_mac p = tp_mac q.
Definition packet_wire (p : tpacket) : bytes := meta_wire (tp_meta p) ++ tp_body p ++ bytes_of (tp_mac p).
