(* What signing and verifying a transport packet owe their caller in terms of memory, whichever
   allocations fail. *)
From Verif.Base Require Import Bytes Monad.
From Verif.Model Require Import Buffer Cipher Ecdsa Prims Engine Identity TransportPacket Heap HeapObjects HeapMessages HeapParse.
From Verif.Spec Require Import HeapSpec HeapObjectSpec CopySpec HeapParseSpec HeapWriteSpec HeapEngineSpec HeapProtocolSpec HeapGenerateSpec HeapContextSpec.
Local Open Scope N_scope.

(* --- signing --- *)
(* the structure and the body stay where they are *)
Definition packet_in_place (p p' : htp) : Prop := htp_addr p' = htp_addr p /\ htp_body p' = htp_body p.
Definition packet_left (a : bool * htp) : list cell := tp_cells (snd a).
(* the answer and the packet afterwards *)
Definition signs_to (P : prims) (p : tpacket) (c : chain) (s : nat) (a : bool * tpacket) : Prop := fst (tpacket_sign P p c s) = Val a.
(* what the node signs, and its signature *)
Definition signed_bytes (p : tpacket) : option bytes := tpacket_serialize (set_mac_type p MAC_EC_P521).
Definition packet_signature (P : prims) (p : tpacket) (c : chain) (s : nat) : res ecdsa_result := fst (identity_sign P (Some (ch_node c)) (signed_bytes p) s).
(* the packet with this mac and no bytes for the network *)
Definition with_mac (p : tpacket) (m : bytes) : tpacket :=
  {| tp_network := None; tp_body := tp_body p; tp_mac := Some m; tp_meta := {| tm_body := tm_body (tp_meta p); tm_mac := MAC_EC_P521 |} |}.
(* After a failure the packet may be as it was; or it has the signature, perhaps without its padding,
   and the answer tells whether it has bytes for the network. *)
Definition sign_right (P : prims) (p : htp) (c : chain) (s : nat) (fails : schedule) (a : bool * htp) : Prop :=
  packet_in_place p (snd a) /\
  (signs_to P (tp_value p) c s (fst a, tp_value (snd a)) \/
   some_failure fails /\
     (fst a = false /\ snd a = p \/
      exists g m, packet_signature P (tp_value p) c s = Val g /\ (ecdsa_result_serialize (Some g) = Some m \/ m = unpadded g) /\
        ((fst a = false /\ tp_value (snd a) = with_mac (tp_value p) m) \/
         (fst a = true /\ exists n, tpacket_serialize (with_mac (tp_value p) m) = Some n /\ tp_value (snd a) = set_network (with_mac (tp_value p) m) (Some n))))).
Definition sign_ok_after (P : prims) (p : htp) (c : chain) (s : nat) (a : bool * htp) : Prop :=
  packet_in_place p (snd a) /\ signs_to P (tp_value p) c s (fst a, tp_value (snd a)).
(* blocks stay behind after a failure, when the private key cannot be decoded, and when the packet
   has a mac or bytes for the network already *)
Definition packet_sign_leak (P : prims) (p : htp) (c : hch) (fails : schedule) : Prop :=
  sign_leak P (Some (hid_key (hch_node c))) fails \/ htp_mac p <> None \/ htp_network p <> None.
(* what may be left readable: the header, what is signed and the signature *)
Definition packet_sign_public (P : prims) (p : tpacket) (c : chain) (s : nat) : list bytes :=
  opt_list (tmeta_serialize {| tm_body := tm_body (tp_meta p); tm_mac := MAC_EC_P521 |}) ++ opt_list (signed_bytes p) ++ plain_of sig_plain (packet_signature P p c s).
Definition sign_kinds : list ctype := [T_openssl; T_ecdsa_result].

(* --- verifying --- *)
(* the bytes the packet is compared by: those that came in, or those it would be sent as *)
Definition packet_bytes (p : tpacket) : option bytes := match tp_network p with Some n => Some n | None => tpacket_serialize p end.
(* the chain is good and its node signed all bytes of the packet but the mac *)
Definition vouched (P : prims) (p : tpacket) (c : chain) : Prop :=
  chain_passes P c /\ tm_mac (tp_meta p) = MAC_EC_P521 /\
  exists mac n g, tp_mac p = Some mac /\ packet_bytes p = Some n /\ blen mac < blen n /\ ecdsa_result_create_from_buffer (Some mac) = Val g /\
    ec_verify P (Some g) (Some (id_key (ch_node c))) (Some (firstn (N.to_nat (blen n - blen mac)) n)) = true.
(* the packet is what it was, but for the bytes for the network if it had none *)
Definition packet_kept (p p' : htp) : Prop :=
  packet_in_place p p' /\ htp_mac p' = htp_mac p /\ htp_meta p' = htp_meta p /\
  (htp_network p' = htp_network p \/ htp_network p = None /\ exists n, htp_network p' = Some n /\ tpacket_serialize (tp_value p) = Some (b_bytes n)).
Definition chain_kept (P : prims) (fails : schedule) (c c' : hch) : Prop := c' = c \/ exists v, chain_after P c fails (v, c').
Definition verify_left (a : bool * htp * hch) : list cell := tp_cells (snd (fst a)) ++ ch_cells (snd a).
Definition verifies_to (P : prims) (p : tpacket) (c : chain) (a : bool * htp * hch) : Prop :=
  tpacket_verify P p c = (Val (fst (fst a)), tp_value (snd (fst a)), ch_value (snd a)).
Definition verify_right (P : prims) (p : htp) (c : hch) (fails : schedule) (a : bool * htp * hch) : Prop :=
  packet_kept p (snd (fst a)) /\ chain_kept P fails c (snd a) /\
  (verifies_to P (tp_value p) (ch_value c) a \/ some_failure fails /\ (fst (fst a) = true -> vouched P (tp_value p) (ch_value c))).
Definition verify_ok (P : prims) (p : htp) (c : hch) (a : bool * htp * hch) : Prop :=
  packet_kept p (snd (fst a)) /\ chain_kept P never c (snd a) /\ verifies_to P (tp_value p) (ch_value c) a.
Definition verify_public (P : prims) (p : tpacket) (c : chain) : list bytes :=
  opt_list (tmeta_serialize (tp_meta p)) ++ chain_strings P c ++ opt_plain (fun m => plain_of sig_plain (ecdsa_result_create_from_buffer (Some m))) (tp_mac p).
Definition verify_kinds : list ctype := T_openssl :: T_ecdsa_result :: buffer_kinds.

(* --- what can go wrong --- *)
(* a block of the packet stays behind although the packet does not have it any more *)
Definition change_forgets {A} (args : list (list cell)) (owned : list cell) (left : A -> list cell) (fails : schedule) (kept : bytes) (op : H A) : Prop :=
  exists h a h', heap_ok h /\ in_memory h owned /\ all_in_memory h args /\ separate args owned /\ op fails h = Some (a, h') /\
    exists x, In x (map fst owned) /\ ~ In x (map fst (left a)) /\ mem h' x = Some kept.
(* these bytes come from the network: they are a packet and the chain verifies it *)
Definition arrives (P : prims) (n : bytes) (c : chain) : bool :=
  match tpacket_create_from_buffer (Some n) with
  | Val q => match fst (fst (tpacket_verify P q c)) with Val b => b | _ => false end
  | _ => false
  end.
