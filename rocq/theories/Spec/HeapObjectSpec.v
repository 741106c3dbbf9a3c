(* For each kind of object: which of its byte strings its destroy function may leave readable in
   released memory ([*_plain]) and which a failing copy may ([*_copy_plain]); everything else
   must be wiped.  And what a copy may lack when an allocation has failed ([*_dropped]). *)
From Verif.Base Require Import Bytes.
From Verif.Model Require Import Buffer Cipher Ecdsa Kdf Prims Engine Fingerprint Identity Node Stream TransportPacket EcdhCipher Handshake Transport Keys Payload Exchange Packet Ctx.
From Verif.Spec Require Import CopySpec HeapSpec.

Definition opt_list {A} (o : option A) : list A := match o with Some x => [x] | None => [] end.
Definition opt_plain {V} (plain : V -> list bytes) (o : option V) : list bytes := match o with Some v => plain v | None => [] end.
Definition all_public {V} (public : V -> list bytes) (l : list (option V)) : list bytes := flat_map (fun o => flat_map public (opt_list o)) l.
Definition nothing {V} (_ : V) : list bytes := [].

(* --- what may be left readable: nonces, ciphertexts, tags, signatures, identifiers, public
   keys, packets; never private keys, symmetric keys, secrets, message bodies or device salts --- *)
Definition sig_plain (v : ecdsa_result) : list bytes := [es_sig v].
Definition cr_plain (v : cipher_result) : list bytes := cr_iv v :: opt_list (cr_text v) ++ opt_list (cr_tag v).
Definition km_plain (v : kdf_meta) : list bytes := opt_list (km_info v).
Definition km_copy_plain (v : kdf_meta) : list bytes := opt_list (km_salt v).
Definition kr_plain (v : kdf_result) : list bytes := km_plain (kr_meta v).
Definition kr_copy_plain (v : kdf_result) : list bytes := km_copy_plain (kr_meta v) ++ km_plain (kr_meta v).
Definition fp_plain (v : fingerprint) : list bytes := [fp_data v].
Definition key_copy_plain (v : ec_key) : list bytes := [ek_pub v].
Definition id_plain (v : identity) : list bytes := id_identifier v :: opt_plain sig_plain (id_signature v).
Definition id_copy_plain (v : identity) : list bytes := id_plain v ++ key_copy_plain (id_key v).
Definition ch_plain (v : chain) : list bytes := id_plain (ch_root v) ++ id_plain (ch_node v) ++ opt_list (ch_cache v).
Definition ch_copy_plain (v : chain) : list bytes := id_copy_plain (ch_root v) ++ id_copy_plain (ch_node v) ++ opt_list (ch_cache v).
Definition kp_plain (v : keypair) : list bytes := opt_plain sig_plain (kp_signature v).
Definition kp_copy_plain (v : keypair) : list bytes := kp_plain v ++ key_copy_plain (kp_key v).
Definition nd_plain (v : node) : list bytes :=
  nd_dev_id v :: ch_plain (nd_chain v) ++ opt_plain kp_plain (nd_keypair v) ++ opt_list (nd_cache v).
Definition nd_copy_plain (v : node) : list bytes :=
  nd_plain v ++ ch_copy_plain (nd_chain v) ++ opt_plain kp_copy_plain (nd_keypair v).
Definition nodes_plain : list (option node) -> list bytes := all_public nd_plain.
Definition nodes_copy_plain (l : list (option node)) : list bytes := all_public nd_copy_plain l ++ all_public nd_plain l.
Definition me_plain (v : packet_meta) : list bytes := [me_tag v].
Definition py_plain (v : payload) : list bytes := me_plain (py_meta v).
Definition kx_plain (v : key_exchange) : list bytes := kx_id v :: cr_plain (kx_text v).
Definition xa_plain : list (option key_exchange) -> list bytes := all_public kx_plain.
Definition xa_copy_plain (l : list (option key_exchange)) : list bytes := all_public kx_plain l ++ all_public kx_plain l.
Definition xs_plain (v : exchange_set) : list bytes := xa_plain (xs_items v).
Definition xs_copy_plain (v : exchange_set) : list bytes := key_copy_plain (xs_sender v) ++ xa_plain (xs_items v) ++ xa_copy_plain (xs_items v).
Definition pt_plain (v : packet) : list bytes := pt_content v :: sig_plain (pt_signature v).
Definition pa_plain (v : parse_result) : list bytes :=
  opt_plain xs_plain (pa_set v) ++ opt_plain kx_plain (pa_exchange v) ++ opt_plain cr_plain (pa_payload v).
Definition pa_copy_plain (v : parse_result) : list bytes := pa_plain v ++ opt_plain xs_copy_plain (pa_set v).
Definition de_plain (v : decode_result) : list bytes := opt_plain py_plain (de_payload v).
Definition en_plain (v : encoder_result) : list bytes := pt_plain (en_packet v).
Definition rk_copy_plain (v : root_keys) : list bytes := key_copy_plain (rk_signature v).
Definition st_plain (v : stream_key) : list bytes := opt_list (sk_user v).
Definition si_plain (v : stream_iv) : list bytes := [si_seed v].
Definition sc_plain (v : stream_ctx) : list bytes := st_plain (sc_key v) ++ opt_plain si_plain (sc_iv v).
Definition tp_plain (v : tpacket) : list bytes := opt_list (tp_network v) ++ tp_body v :: opt_list (tp_mac v).
Definition tp_copy_plain (v : tpacket) : list bytes := tp_body v :: opt_list (tp_mac v).
Definition ex_copy_plain (v : ecdh_ctx) : list bytes := key_copy_plain (ex_local v).
Definition hr_plain (v : handshake_res) : list bytes := st_plain (hr_local v) ++ st_plain (hr_remote v).
Definition pl_plain : list (option bytes) -> list bytes := all_public (fun b => [b]).
Definition pl_copy_plain (l : list (option bytes)) : list bytes := all_public nothing l ++ all_public (fun b => [b]) l.
Definition hs_plain (v : handshake * list (option bytes)) : list bytes :=
  ch_plain (hs_local (fst v)) ++ opt_plain ch_plain (hs_remote (fst v)) ++ pl_plain (snd v) ++ opt_plain tp_plain (hs_pending (fst v)).
Definition hs_copy_plain (v : handshake * list (option bytes)) : list bytes :=
  hs_plain v ++ ch_copy_plain (hs_local (fst v)) ++ opt_plain ch_copy_plain (hs_remote (fst v)) ++ pl_copy_plain (snd v) ++
  opt_plain key_copy_plain (hs_ephemeral (fst v)) ++ opt_plain tp_copy_plain (hs_pending (fst v)).
Definition tc_plain (v : transport * list (option bytes)) : list bytes :=
  ch_plain (tc_local (fst v)) ++ opt_plain ch_plain (tc_remote (fst v)) ++ opt_plain sc_plain (tc_tx (fst v)) ++
  opt_plain sc_plain (tc_rx (fst v)) ++ opt_plain (fun y => hs_plain (y, snd v)) (tc_handshake (fst v)).
Definition tc_copy_plain (v : transport * list (option bytes)) : list bytes :=
  ch_plain (tc_local (fst v)) ++ ch_copy_plain (tc_local (fst v)) ++ opt_plain ch_plain (tc_remote (fst v)) ++
  opt_plain ch_copy_plain (tc_remote (fst v)) ++ opt_plain sc_plain (tc_tx (fst v)) ++ opt_plain sc_plain (tc_rx (fst v)).
Definition cx_plain (v : ctx) : list bytes := ch_plain (cx_chain v).
Definition cx_copy_plain (v : ctx) : list bytes := ch_plain (cx_chain v) ++ ch_copy_plain (cx_chain v).
Definition gr_plain (v : gen_result) : list bytes := cx_plain (gr_ctx v).
Definition gr_copy_plain (v : gen_result) : list bytes := cx_plain (gr_ctx v) ++ cx_copy_plain (gr_ctx v) ++ rk_copy_plain (gr_root_keys v).
Definition cp_plain (v : ctx_packet) : list bytes := pt_plain (cp_packet v) ++ ch_plain (cp_sender v) ++ pa_plain (cp_parse v).

(* --- what a copy is not meant to keep --- *)
(* the bytes a packet was parsed from *)
Definition tp_detached (v v' : tpacket) : Prop := v' = detached v.
(* the packet list is given beside the record (its two entries are in it too) *)
Definition hs_keep (v : handshake * list (option bytes)) : handshake * list (option bytes) :=
  ({| hs_status := hs_status (fst v); hs_initiator := hs_initiator (fst v); hs_local := hs_local (fst v); hs_remote := hs_remote (fst v);
      hs_evo := hs_evo (fst v); hs_packet0 := hs_packet0 (fst v); hs_packet1 := hs_packet1 (fst v); hs_ephemeral := hs_ephemeral (fst v);
      hs_root := hs_root (fst v); hs_pending := option_map detached (hs_pending (fst v)) |}, snd v).
(* neither the pending handshake nor the last error *)
Definition tc_keep (v : transport * list (option bytes)) : transport * list (option bytes) :=
  ({| tc_local := tc_local (fst v); tc_remote := tc_remote (fst v); tc_tx := tc_tx (fst v); tc_rx := tc_rx (fst v); tc_handshake := None;
      tc_status := tc_status (fst v); tc_evo := tc_evo (fst v); tc_err := E_NONE |}, []).

(* --- what may be missing in a copy when an allocation has failed --- *)
Definition may_lack {V} (o o' : option V) : Prop := o' = o \/ o' = None.
(* the ciphertext and the tag *)
Definition result_dropped (v v' : cipher_result) : Prop :=
  cr_cipher v' = cr_cipher v /\ cr_iv v' = cr_iv v /\ may_lack (cr_text v) (cr_text v') /\ may_lack (cr_tag v) (cr_tag v').
(* the signature *)
Definition id_dropped (v v' : identity) : Prop :=
  id_type v' = id_type v /\ id_identifier v' = id_identifier v /\ id_key v' = id_key v /\ may_lack (id_signature v) (id_signature v').
Definition ch_dropped (v v' : chain) : Prop :=
  id_dropped (ch_root v) (ch_root v') /\ id_dropped (ch_node v) (ch_node v') /\ ch_status v' = ch_status v /\ ch_cache v' = ch_cache v.
Definition nd_dropped (v v' : node) : Prop :=
  nd_dev_id v' = nd_dev_id v /\ ch_dropped (nd_chain v) (nd_chain v') /\ nd_keypair v' = nd_keypair v /\ nd_status v' = nd_status v /\
  nd_cache v' = nd_cache v.
Definition nodes_dropped : list (option node) -> list (option node) -> Prop := Forall2 (part_rel nd_dropped).
Definition kx_dropped (v v' : key_exchange) : Prop :=
  kx_id v' = kx_id v /\ kx_key_id v' = kx_key_id v /\ result_dropped (kx_text v) (kx_text v').
Definition xa_dropped : list (option key_exchange) -> list (option key_exchange) -> Prop := Forall2 (part_rel kx_dropped).
Definition xs_dropped (v v' : exchange_set) : Prop := xs_sender v' = xs_sender v /\ xa_dropped (xs_items v) (xs_items v').
(* any of the parts *)
Definition pa_dropped (v v' : parse_result) : Prop :=
  pa_status v' = pa_status v /\ pa_err v' = pa_err v /\ (part_rel xs_dropped (pa_set v) (pa_set v') \/ pa_set v' = None) /\
  (part_rel kx_dropped (pa_exchange v) (pa_exchange v') \/ pa_exchange v' = None) /\
  (part_rel result_dropped (pa_payload v) (pa_payload v') \/ pa_payload v' = None).
Definition de_dropped (v v' : decode_result) : Prop :=
  de_err v' = de_err v /\ may_lack (de_payload v) (de_payload v') /\ may_lack (de_key v) (de_key v').
(* the nonce generator of a decoding stream *)
Definition sc_dropped (v v' : stream_ctx) : Prop :=
  sc_key v' = sc_key v /\ sc_last v' = sc_last v /\ sc_dir v' = sc_dir v /\ sc_refs v' = sc_refs v /\
  may_lack (sc_iv v) (sc_iv v') /\ (sc_dir v = ENCODE -> sc_iv v' = sc_iv v).
Definition hs_dropped (v v' : handshake * list (option bytes)) : Prop :=
  snd v' = snd v /\ ch_dropped (hs_local (fst v)) (hs_local (fst v')) /\ part_rel ch_dropped (hs_remote (fst v)) (hs_remote (fst v')) /\
  hs_status (fst v') = hs_status (fst v) /\ hs_initiator (fst v') = hs_initiator (fst v) /\ hs_evo (fst v') = hs_evo (fst v) /\
  hs_packet0 (fst v') = hs_packet0 (fst v) /\ hs_packet1 (fst v') = hs_packet1 (fst v) /\ hs_ephemeral (fst v') = hs_ephemeral (fst v) /\
  hs_root (fst v') = hs_root (fst v) /\ hs_pending (fst v') = option_map detached (hs_pending (fst v)).
Definition tc_dropped (v v' : transport * list (option bytes)) : Prop :=
  ch_dropped (tc_local (fst v)) (tc_local (fst v')) /\ part_rel ch_dropped (tc_remote (fst v)) (tc_remote (fst v')) /\
  part_rel sc_dropped (tc_tx (fst v)) (tc_tx (fst v')) /\ part_rel sc_dropped (tc_rx (fst v)) (tc_rx (fst v')) /\
  tc_handshake (fst v') = None /\ tc_status (fst v') = tc_status (fst v) /\ tc_evo (fst v') = tc_evo (fst v) /\ tc_err (fst v') = E_NONE /\
  snd v' = [].
(* the header key is derived again from the identifiers *)
Definition cx_dropped (P : prims) (v v' : ctx) : Prop :=
  cx_dev v' = cx_dev v /\ ch_dropped (cx_chain v) (cx_chain v') /\ cx_storage v' = cx_storage v /\ cx_version v' = cx_version v /\
  gen_header_key P default_cipher (cx_chain v) = Some (cx_header_key v').
Definition gr_dropped (P : prims) (v v' : gen_result) : Prop :=
  cx_dropped P (gr_ctx v) (gr_ctx v') /\ gr_recovery_key v' = gr_recovery_key v /\ gr_root_keys v' = gr_root_keys v.

(* --- objects the library makes, for the kinds where memory asks more than CopySpec --- *)
Definition fits_exchange_set (s : exchange_set) : Prop := made_ec_key (xs_sender s) /\ made_items made_key_exchange (xs_items s).
Definition fits_parse_result (r : parse_result) : Prop :=
  if_set fits_exchange_set (pa_set r) /\ if_set made_key_exchange (pa_exchange r) /\ if_set made_cipher_result (pa_payload r).
Definition fits_handshake (v : handshake * list (option bytes)) : Prop := made_handshake (fst v) /\ made_items real (snd v).
(* a transport that has not learnt its peer's identity cannot be copied *)
Definition fits_transport (v : transport * list (option bytes)) : Prop := made_transport (fst v) /\ tc_remote (fst v) <> None.
Definition fits_ctx (P : prims) (v : ctx) : Prop :=
  made_dev_info (cx_dev v) /\ made_chain (cx_chain v) /\ made_storage_keys (cx_storage v) /\
  gen_header_key P default_cipher (cx_chain v) = Some (cx_header_key v).
Definition fits_gen_result (P : prims) (v : gen_result) : Prop :=
  fits_ctx P (gr_ctx v) /\ made_cipher_key (gr_recovery_key v) /\ made_root_keys (gr_root_keys v).
(* SHA-256 gives 32 bytes *)
Definition digests_sized (P : prims) : Prop := forall b, blen (p_sha P SHA256 b) = 32%N.
