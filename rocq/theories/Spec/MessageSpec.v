(* Vocabulary for payloads, key exchanges and message packets. *)
From Verif.Base Require Import Bytes Monad.
From Verif.Model Require Import Cipher Ecdsa Prims Engine Identity Node Payload Exchange Packet.
From Verif.Spec Require Import BufferSpec CodecSpec IdentitySpec.
Local Open Scope N_scope.

(* --- payloads: 64-bit times, a 16-bit content type, a tag and a body *)
Definition good_payload (p : payload) : Prop :=
  me_ttl (py_meta p) < 2 ^ 64 /\ me_bor (py_meta p) < 2 ^ 64 /\ me_type (py_meta p) < 2 ^ 16 /\
  within_limit (blen (me_tag (py_meta p))) /\ within_limit (blen (py_body p)).

(* --- key exchanges *)
Definition good_exchange (x : key_exchange) : Prop :=
  kx_id x <> [] /\ kx_key_id x < 2 ^ 64 /\ good_result (kx_text x).
(* small enough for the library's buffers *)
Definition exchange_fits (x : key_exchange) : Prop := blen (kx_id x) <= library_limit /\ within_limit (blen (result_wire (kx_text x))).
(* a set with items in all its slots *)
Definition full_set (s : exchange_set) (l : list key_exchange) : Prop := xs_items s = map Some l.
Definition good_set (P : prims) (s : exchange_set) : Prop :=
  importable P (xs_sender s) /\ exists l, full_set s l /\ Forall good_exchange l.
(* x is the first item of l with identifier i *)
Definition first_with (i : bytes) (l : list key_exchange) (x : key_exchange) : Prop :=
  exists l1 l2, l = (l1 ++ x :: l2)%list /\ kx_id x = i /\ (forall y, In y l1 -> kx_id y <> i).

(* --- packets: version, curve number, content, 143-byte signature *)
Definition supported_version (v : N) : Prop := v = 2 \/ v = 3 \/ v = 4.
Definition good_packet (p : packet) : Prop :=
  supported_version (pt_version p) /\ pt_content p <> [] /\ good_sig (pt_signature p) /\ es_digest (pt_signature p) = SHA512.
Definition packet_wire (p : packet) : bytes :=
  (n2b (pt_version p) :: x00 :: pt_content p ++ sig_wire (pt_signature p))%list.

(* --- what a stranger must know of a sender: the public part of both identities *)
Definition same_public (c d : chain) : Prop :=
  id_identifier (ch_root c) = id_identifier (ch_root d) /\ id_identifier (ch_node c) = id_identifier (ch_node d) /\
  public_key (id_key (ch_root c)) = public_key (id_key (ch_root d)) /\
  public_key (id_key (ch_node c)) = public_key (id_key (ch_node d)).
(* a key pair of the engine *)
Definition engine_pair (P : prims) (k : ec_key) : Prop := engine_key P k /\ ek_pri k <> None.

(* --- recipients *)
Fixpoint node_after (P : prims) (n : node) (ops : list node_op) : node :=
  match ops with [] => n | o :: r => node_after P (snd (node_step P o n)) r end.
(* m is a node of the program: it was made from a fresh chain, and since then verified, copied and
   rotated in any order (C35 tells why its chain must not be exchanged), under C35's assumptions *)
Definition lawful_node (P : prims) (m : node) : Prop :=
  exists d root node kp c n ops, chain_create (Some root) (Some node) = Some c /\ node_create (Some d) (Some c) kp = Some n /\
    Forall same_chain_op ops /\ node_after P n ops = m /\
    (forall x a, In (x, a) (node_trace P n (ops ++ [NVerify])) -> regular_keypair x) /\
    collision_free P (flat_map (fun xa => node_messages (fst xa)) (node_trace P n (ops ++ [NVerify]))).
(* key identifiers are 64-bit numbers *)
Definition key_ids_ok (rs : list (option node)) : Prop := forall n kp, In (Some n) rs -> nd_keypair n = Some kp -> kp_identifier kp < 2 ^ 64.
Definition node_id (n : node) : bytes := id_identifier (ch_node (nd_chain n)).
(* no two entries of a recipient list have the same node identifier *)
Definition distinct_recipients (rs : list (option node)) : Prop :=
  forall l1 n l2 m, rs = (l1 ++ Some n :: l2)%list -> In (Some m) l1 -> node_id m <> node_id n.
(* the signature of a packet is one of the sender's node key over the content *)
Definition sender_verifies (P : prims) (p : packet) (s : chain) : Prop :=
  ec_verify P (Some (pt_signature p)) (Some (id_key (ch_node s))) (Some (pt_content p)) = true.
(* the signature x of key k for m is not also one for m' *)
Definition no_forgery (P : prims) (x : ecdsa_result) (k : ec_key) (m m' : bytes) : Prop :=
  ec_verify P (Some x) (Some k) (Some m) = true -> ec_verify P (Some x) (Some k) (Some m') = true -> m = m'.
