(* Vocabulary for handshakes and transport contexts. *)
From Verif.Base Require Import Bytes Monad.
From Verif.Model Require Import Cipher Ecdsa Prims Engine Identity Stream TransportPacket Handshake Transport.
From Verif.Spec Require Import BufferSpec CodecSpec EngineSpec IdentitySpec StreamSpec TransportSpec.
Local Open Scope N_scope.

(* wickr_transport_packet_verify says yes *)
Definition verified_by (P : prims) (p : tpacket) (c : chain) : Prop := fst (fst (tpacket_verify P p c)) = Val true.
(* the same identities, whatever is remembered about their validity *)
Definition same_identities (c d : chain) : Prop := ch_root c = ch_root d /\ ch_node c = ch_node d.

(* the identities a handshake packet carries *)
Definition carries (P : prims) (p : tpacket) (c : chain) : Prop :=
  exists m, (exists sd, handshake_from_packet p = Some (PSeed sd) /\ ps_chain sd = Some m \/
             exists r, handshake_from_packet p = Some (PResponse r) /\ pr_chain r = Some m) /\
            chain_create_from_proto P (Some m) = Val c.
(* whose signature a handshake expects on a packet: the known remote identity or, without one, the
   identity the packet itself carries *)
Definition expected_sender (P : prims) (h : handshake) (p : tpacket) (c : chain) : Prop :=
  match hs_remote h with Some r => c = r | None => carries P p c end.

(* --- histories of one handshake *)
Inductive hop :=
| HStart
| HProcess (p : option tpacket)
| HVerify (is_valid : bool)
| HFinalize.
(* what a call gives: a packet to send, a question about an identity, the keys *)
Record hout := { ho_packet : option tpacket; ho_asked : option chain; ho_keys : option handshake_res }.
Definition hstep (P : prims) (h : handshake) (o : hop) (s : nat) : res (handshake * hout) :=
  match o with
  | HStart => match fst (handshake_start P h s) with
              | Val (h', p) => Val (h', {| ho_packet := p; ho_asked := None; ho_keys := None |})
              | Null => Null | UB => UB end
  | HProcess p => match fst (handshake_process P h p s) with
                  | Val (h', q, a) => Val (h', {| ho_packet := q; ho_asked := a; ho_keys := None |})
                  | Null => Null | UB => UB end
  | HVerify v => let '(h', p) := handshake_verify_identity h v in Val (h', {| ho_packet := p; ho_asked := None; ho_keys := None |})
  | HFinalize => match handshake_finalize P h with
                 | Val (h', k) => Val (h', {| ho_packet := None; ho_asked := None; ho_keys := k |})
                 | Null => Null | UB => UB end
  end.
(* the histories in which no call crashed, with arbitrary random draws in each call *)
Inductive hreach (P : prims) (h0 : handshake) : list (hop * hout) -> handshake -> Prop :=
| hreach_nil : hreach P h0 [] h0
| hreach_step hist h o s h' out : hreach P h0 hist h -> hstep P h o s = Val (h', out) -> hreach P h0 (hist ++ [(o, out)]) h'.

(* in this history a packet signed by the identity it carries was processed, the user was asked about
   that identity and afterwards said that it is valid *)
Definition identity_accepted (P : prims) (hist : list (hop * hout)) : Prop :=
  exists before p out1 between out2 after c i,
    hist = (before ++ (HProcess (Some p), out1) :: between ++ (HVerify true, out2) :: after)%list /\
    carries P p c /\ verified_by P p c /\ chain_truth P c = true /\
    ho_asked out1 = Some i /\ same_identities i c.

(* --- histories of one transport context *)
Inductive reach (P : prims) (c0 : transport) : list (top * list tevent) -> transport -> Prop :=
| reach_nil : reach P c0 [] c0
| reach_step hist c o s c' ev : reach P c0 hist c -> fst (transport_step P c o s) = Val (c', ev) -> reach P c0 (hist ++ [(o, ev)]) c'.
Definition events (hist : list (top * list tevent)) : list tevent := flat_map snd hist.
(* a packet received in this history carries the signature of an identity that is the one given at
   creation or, when none was given, one the user was asked about and then accepted *)
Definition peer_authenticated (P : prims) (pinned : option chain) (hist : list (top * list tevent)) : Prop :=
  exists before b answer pad ev after p c,
    hist = (before ++ (TReceive (Some b) answer pad, ev) :: after)%list /\
    tpacket_create_from_buffer (Some b) = Val p /\ verified_by P p c /\
    match pinned with
    | Some r => same_identities c r
    | None => chain_truth P c = true /\ (exists i, In (EvVerify i) ev /\ same_identities i c) /\
              (answer = Some true \/ exists e, In (TAnswer true, e) after)
    end.
(* a copy of the identity given at creation, which each handshake takes, is complete *)
Definition copyable (pinned : option chain) : Prop :=
  match pinned with None => True | Some r => exists r', chain_copy (Some r) = Some r' /\ same_identities r' r end.
(* the bytes of a packet of the handshake, that is not of a data packet *)
Definition handshake_bytes (b : bytes) : Prop := exists p v f, tpacket_serialize p = Some b /\ tm_body (tp_meta p) = Handshake v f.
(* nothing was encrypted or decrypted with these streams yet *)
Definition fresh_streams (P : prims) (c : transport) (ks kr : stream_key) : Prop :=
  exists tx rx s1 s1' s2 s2', tc_tx c = Some tx /\ tc_rx c = Some rx /\
    stream_ctx_create P (Some ks) ENCODE s1 = (Val tx, s1') /\ stream_ctx_create P (Some kr) DECODE s2 = (Val rx, s2').

(* --- messages *)
Definition is_rx (e : tevent) : list bytes := match e with EvRx d => [d] | _ => [] end.
Definition is_tx (e : tevent) : list bytes := match e with EvTx b => [b] | _ => [] end.
(* the data handed to the user *)
Definition delivered (hist : list (top * list tevent)) : list bytes := flat_map is_rx (events hist).
(* the bytes given to the network *)
Definition transmitted (hist : list (top * list tevent)) : list bytes := flat_map is_tx (events hist).
(* the data given by the user that made it to the network *)
Definition accepted_data (x : top * list tevent) : list bytes :=
  match x with (TSend (Some d), [EvTx _]) => [d] | _ => [] end.
Definition sent_data (hist : list (top * list tevent)) : list bytes := flat_map accepted_data hist.
(* the AES-GCM input of a data packet: header, IV, ciphertext and tag *)
Definition sealed (b : bytes) (aad : bytes) (r : cipher_result) : Prop :=
  exists p, tpacket_create_from_buffer (Some b) = Val p /\ aad = meta_wire (tp_meta p) /\ cipher_result_from_buffer (Some (tp_body p)) = Val r.
(* whatever the receiver took for genuine, under some key of the stream, the sender has sealed *)
Definition no_forgery (P : prims) (sender receiver : list (top * list tevent)) : Prop :=
  forall b answer pad ev d aad r key, In (TReceive (Some b) answer pad, ev) receiver -> In (EvRx d) ev -> sealed b aad r -> opened P r key aad d ->
  exists w, In w (transmitted sender) /\ sealed w aad r.

(* --- two ends of a handshake *)
(* the user accepts the identity, if asked *)
Definition settle (h : handshake) (p : option tpacket) : handshake * option tpacket :=
  match hs_status h with H_PENDING_VERIFICATION => handshake_verify_identity h true | _ => (h, p) end.
(* the initiator's packet travels as the bytes w1, the responder's answer as the bytes w2, both ends
   are satisfied with the identities and finish with the keys ki and kr; every call may draw any
   random values *)
Definition handshake_run (P : prims) (initiator responder : handshake) (w1 w2 : bytes) (ki kr : handshake_res) : Prop :=
  exists s1 s2 s3 h1 p1 p1' g1 q1 a1 g2 p2 p2' h2 q2 a2 h3 q3 he ge,
    fst (handshake_start P initiator s1) = Val (h1, Some p1) /\
    tpacket_serialize p1 = Some w1 /\ tpacket_create_from_buffer (Some w1) = Val p1' /\
    fst (handshake_process P responder (Some p1') s2) = Val (g1, q1, a1) /\ settle g1 q1 = (g2, Some p2) /\
    tpacket_serialize p2 = Some w2 /\ tpacket_create_from_buffer (Some w2) = Val p2' /\
    fst (handshake_process P h1 (Some p2') s3) = Val (h2, q2, a2) /\ settle h2 q2 = (h3, q3) /\
    handshake_finalize P h3 = Val (he, Some ki) /\ handshake_finalize P g2 = Val (ge, Some kr).
(* an end may know the other's identities beforehand *)
Definition knows (remote : option chain) (other : chain) : Prop :=
  match remote with None => True | Some r => public_chain r = public_chain other end.
(* the stream key of one direction, cut out of the derived bytes *)
Definition direction_key (out : bytes) (evo : N) : stream_key :=
  {| sk_cipher := {| ck_cipher := AES256_GCM; ck_data := firstn 32 out |}; sk_evo := skipn 32 out; sk_ppe := evo; sk_user := None |}.

(* --- two transport contexts *)
(* a context receives the bytes b and its user accepts the peer's identity, at once or later *)
Definition receives (P : prims) (c : transport) (b : bytes) (c' : transport) (ev : list tevent) : Prop :=
  exists pad s, fst (transport_step P c (TReceive (Some b) (Some true) pad) s) = Val (c', ev) \/
    exists s' c1 ev1 i ev2, fst (transport_step P c (TReceive (Some b) None pad) s) = Val (c1, ev1) /\ In (EvVerify i) ev1 /\
      fst (transport_step P c1 (TAnswer true) s') = Val (c', ev2) /\ ev = (ev1 ++ ev2)%list.
(* the initiator starts and sends w1, the responder receives it and sends w2, the initiator receives
   that, and both contexts are active *)
Definition connected (P : prims) (initiator responder : transport) (w1 w2 : bytes) (initiator' responder' : transport) : Prop :=
  exists s c1 ev1 ev2 ev3, fst (transport_step P initiator TStart s) = Val (c1, ev1) /\ In (EvTx w1) ev1 /\
    receives P responder w1 responder' ev2 /\ In (EvTx w2) ev2 /\ tc_status responder' = T_ACTIVE /\
    receives P c1 w2 initiator' ev3 /\ tc_status initiator' = T_ACTIVE.

(* a packet of the handshake with the wrong content: an answer where an opening packet is expected,
   or an opening packet where an answer is expected *)
Definition wrong_variant (c : transport) (o : top) : Prop :=
  exists b answer pad p m, o = TReceive (Some b) answer pad /\ tpacket_create_from_buffer (Some b) = Val p /\ handshake_from_packet p = Some m /\
    match handshake_status (tc_handshake c), m with H_UNKNOWN, PResponse _ | H_IN_PROGRESS, PSeed _ => True | _, _ => False end.
