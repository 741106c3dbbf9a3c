(* What a copy function owes its caller, and the objects the library's constructors can make.
   A wickr_buffer_t made by the library holds between 1 and [library_limit] bytes. *)
From Verif.Base Require Import Bytes.
From Verif.Model Require Import Buffer Cipher Ecdsa Kdf Fingerprint Identity Node Stream TransportPacket EcdhCipher Handshake Transport Keys Payload Exchange Packet Ctx.
From Verif.Spec Require Import BufferSpec.
Local Open Scope N_scope.

(* a copy function: NULL for NULL, and an equal object for every object the library can make *)
Definition copies {A} (copy : option A -> option A) (made : A -> Prop) : Prop :=
  copy None = None /\ forall x, made x -> copy (Some x) = Some x.
(* whatever the object, made by the library or by hand, what is returned is equal to it *)
Definition never_differs {A} (copy : option A -> option A) : Prop := forall x y, copy (Some x) = Some y -> y = x.

Definition real (b : bytes) : Prop := within_limit (blen b).
Definition if_set {A} (Q : A -> Prop) (o : option A) : Prop := forall x, o = Some x -> Q x.

Definition made_cipher_result (r : cipher_result) : Prop :=
  match cr_cipher r with
  | AES256_GCM => blen (cr_iv r) = 12 /\ exists t, cr_tag r = Some t /\ blen t = 16
  | AES256_CTR => blen (cr_iv r) = 16 /\ cr_tag r = None
  end /\ if_set real (cr_text r).
Definition made_cipher_key (k : cipher_key) : Prop := blen (ck_data k) = 32.
Definition made_ec_key (k : ec_key) : Prop := real (ek_pub k) /\ if_set real (ek_pri k).
Definition made_signature (s : ecdsa_result) : Prop := real (es_sig s).
(* HKDF: a salt or an info; bcrypt and scrypt: a salt of the algorithm's size *)
Definition made_kdf_meta (m : kdf_meta) : Prop :=
  if_set real (km_salt m) /\ if_set real (km_info m) /\
  match ka_kind (km_algo m) with
  | KDF_HMAC_SHA2 => km_salt m <> None \/ km_info m <> None
  | _ => exists s, km_salt m = Some s /\ blen s = ka_salt_size (km_algo m)
  end.
Definition made_kdf_result (r : kdf_result) : Prop := made_kdf_meta (kr_meta r) /\ real (kr_hash r).
Definition made_fingerprint (f : fingerprint) : Prop := real (fp_data f).
Definition made_ecdh_ctx (x : ecdh_ctx) : Prop := made_ec_key (ex_local x).
Definition made_identity (x : identity) : Prop :=
  real (id_identifier x) /\ blen (id_identifier x) < 128 /\ made_ec_key (id_key x) /\ if_set made_signature (id_signature x).
Definition made_chain (c : chain) : Prop := made_identity (ch_root c) /\ made_identity (ch_node c) /\ if_set real (ch_cache c).
Definition made_keypair (k : keypair) : Prop := made_ec_key (kp_key k) /\ if_set made_signature (kp_signature k).
Definition made_node (n : node) : Prop :=
  real (nd_dev_id n) /\ made_chain (nd_chain n) /\ if_set made_keypair (nd_keypair n) /\ if_set real (nd_cache n).
Definition made_nodes (l : list (option node)) : Prop := Forall (if_set made_node) l.
Definition made_storage_keys (k : storage_keys) : Prop := made_cipher_key (sk_local k) /\ made_cipher_key (sk_remote k).
Definition made_root_keys (k : root_keys) : Prop := made_ec_key (rk_signature k) /\ made_cipher_key (rk_node k) /\ made_cipher_key (rk_remote k).
(* a device information without system salt can be made but not copied *)
Definition made_dev_info (i : dev_info) : Prop :=
  real (di_dev_salt i) /\ (exists y, di_system_salt i = Some y /\ real y) /\ real (di_msg_proto_id i) /\ real (di_srv_comm_id i).
(* the content type is a 16-bit number *)
Definition made_packet_meta (m : packet_meta) : Prop := real (me_tag m) /\ me_type m < 65536.
Definition made_payload (p : payload) : Prop := made_packet_meta (py_meta p) /\ real (py_body p).
Definition made_key_exchange (x : key_exchange) : Prop := real (kx_id x) /\ made_cipher_result (kx_text x).
Definition made_exchange_set (s : exchange_set) : Prop := made_ec_key (xs_sender s) /\ Forall (if_set made_key_exchange) (xs_items s).
Definition made_packet (p : packet) : Prop := real (pt_content p) /\ made_signature (pt_signature p).
Definition made_parse_result (r : parse_result) : Prop :=
  if_set made_exchange_set (pa_set r) /\ if_set made_key_exchange (pa_exchange r) /\ if_set made_cipher_result (pa_payload r).
Definition made_decode_result (r : decode_result) : Prop := if_set made_payload (de_payload r) /\ if_set made_cipher_key (de_key r).
Definition made_encoder_result (r : encoder_result) : Prop := made_cipher_key (en_key r) /\ made_packet (en_packet r).
Definition made_stream_key (k : stream_key) : Prop :=
  made_cipher_key (sk_cipher k) /\ real (sk_evo k) /\ 1 <= sk_ppe k <= 32768 /\ if_set real (sk_user k).
Definition made_stream_iv (v : stream_iv) : Prop := real (si_seed v).
(* an encoding stream has a nonce generator *)
Definition made_stream_ctx (c : stream_ctx) : Prop :=
  made_stream_key (sc_key c) /\ if_set made_stream_iv (sc_iv c) /\ (sc_dir c = ENCODE -> sc_iv c <> None).
Definition made_root_key (k : root_key) : Prop := blen (rk_secret k) = 32.
Definition made_tpacket (p : tpacket) : Prop := real (tp_body p) /\ if_set real (tp_mac p).
Definition made_handshake_res (r : handshake_res) : Prop := made_stream_key (hr_local r) /\ made_stream_key (hr_remote r).
Definition made_handshake (h : handshake) : Prop :=
  made_chain (hs_local h) /\ if_set made_chain (hs_remote h) /\ if_set real (hs_packet0 h) /\ if_set real (hs_packet1 h) /\
  if_set made_root_key (hs_root h) /\ if_set made_tpacket (hs_pending h) /\ if_set made_ec_key (hs_ephemeral h) /\ hs_evo h <> 0.
Definition made_transport (c : transport) : Prop :=
  made_chain (tc_local c) /\ if_set made_chain (tc_remote c) /\ if_set made_stream_ctx (tc_tx c) /\ if_set made_stream_ctx (tc_rx c).

(* a fresh reference to the same stream *)
Definition one_owner (c : stream_ctx) : stream_ctx :=
  {| sc_key := sc_key c; sc_last := sc_last c; sc_dir := sc_dir c; sc_iv := sc_iv c; sc_refs := 1 |}.
(* a transport packet without the bytes it was parsed from *)
Definition detached (p : tpacket) : tpacket := {| tp_network := None; tp_body := tp_body p; tp_mac := tp_mac p; tp_meta := tp_meta p |}.

(* A deserializer: NULL for NULL; for any byte string it touches no memory it must not (never UB)
   and gives NULL or an object the constructors could have made. *)
Definition parses {A} (parse : option bytes -> res A) (made : A -> Prop) : Prop :=
  parse None = Null /\ (forall b, parse b <> UB) /\ forall b x, parse b = Val x -> made x.
(* the recipients' entries of a received header: at least one, none missing *)
Definition all_set (s : exchange_set) : Prop := xs_items s <> [] /\ Forall (fun o => o <> None) (xs_items s).
