(* The functions that turn an object into bytes, on the heap of Model/Heap.v.  They follow the
   functional model (Model/*.v) and add what is allocated, released and left behind.
   A protobuf message is built in blocks of its own, but most of its fields of bytes point into
   the object that is written ([pr_borrowed]).  Simplification: the message itself is a Gallina
   value ([pr_msg]), as the fields of the structures are; packing it demands that everything it
   points to is still there. *)
From Verif.Base Require Import Bytes.
From Verif.Model Require Import Buffer Cipher Ecdsa Kdf Prims Engine Identity Node Stream TransportPacket EcdhCipher Handshake Transport Keys Payload Exchange Packet Ctx Heap HeapObjects HeapMessages HeapParse.
Local Open Scope N_scope.
Local Open Scope h_scope.

(* reading the bytes of a buffer: length and bytes, then the data *)
Definition h_bytes (b : hbuf) : H bytes := touch (b_addr b) ;;; load (b_data b).
Definition h_bytes_opt (b : option hbuf) : H (option bytes) :=
  match b with
  | None => hret None
  | Some x => c <-! h_bytes x ;; hret (Some c)
  end.
(* buffer.c:99-123 and buffer.c:125-170; the bytes of the buffers have been read, and the new
   buffer is filled in one step instead of one for each part *)
Definition h_concat (x y : option bytes) : H (option hbuf) := c <-: lift (buffer_concat x y) ;; h_buffer_create c.
Definition h_concat_multi (l : list (option bytes)) : H (option hbuf) := c <-: lift (buffer_concat_multi l) ;; h_buffer_create c.

(* cipher.c:93-109 with 76-91 *)
Definition h_cipher_result_serialize (result : option hcr) : H (option hbuf) :=
  match result with
  | None => hret None
  | Some r =>
      touch (hcr_addr r) ;;;
      if is_authenticated (hcr_cipher r) && (match hcr_tag r with None => true | _ => false end) then hret None
      else
        let mode := Some [n2b (cipher_id (hcr_cipher r))] in
        iv <-! h_bytes (hcr_iv r) ;;
        text <-! h_bytes_opt (hcr_text r) ;;
        if negb (is_authenticated (hcr_cipher r)) then h_concat_multi [mode; Some iv; text]
        else tag <-! h_bytes_opt (hcr_tag r) ;; h_concat_multi [mode; Some iv; tag; text]
  end.
(* cipher.c:211-224 *)
Definition h_cipher_key_serialize (key : option hck) : H (option hbuf) :=
  match key with
  | None => hret None
  | Some k => touch (hck_addr k) ;;; c <-! h_bytes (hck_data k) ;; h_concat (Some [n2b (cipher_id (hck_cipher k))]) (Some c)
  end.
(* ecdsa.c:51-77; the buffer of the padding is not tested: without it the padding is left out *)
Definition h_ecdsa_result_serialize (result : option hsig) : H (option hbuf) :=
  match result with
  | None => hret None
  | Some s =>
      touch (hsig_addr s) ;;;
      c <-! h_bytes (hsig_data s) ;;
      if signature_size (hsig_curve s) <? wadd64 (blen c) ECDSA_HEADER_SIZE then hret None
      else
        let meta := n2b (N.lor (N.shiftl (curve_id (hsig_curve s)) 4) (digest_id (hsig_digest s))) in
        let pad_count := wsub64 (wsub64 (signature_size (hsig_curve s)) (blen c)) ECDSA_HEADER_SIZE mod 256 in
        pad <-! h_buffer_create_empty pad_count ;;
        p <-! h_bytes_opt pad ;;
        full <-! h_concat_multi [Some [meta]; Some [n2b pad_count]; p; Some c] ;;
        h_buffer_destroy pad ;;;
        hret full
  end.
(* kdf.c:122-140 *)
Definition h_kdf_meta_serialize (meta : option hkm) : H (option hbuf) :=
  match meta with
  | None => hret None
  | Some m =>
      touch (hkm_addr m) ;;;
      if kdf_kind_eqb (ka_kind (hkm_algo m)) KDF_HMAC_SHA2 && (match hkm_salt m with None => true | _ => false end) then hret None
      else salt <-! h_bytes_opt (hkm_salt m) ;; h_concat (Some [n2b (ka_id (hkm_algo m))]) salt
  end.

(* --- protobuf messages --- *)
(* [pr_own]: the blocks of the message, in the order they are released, and what they hold *)
Record hproto (M : Type) := { pr_own : list cell; pr_borrowed : list block; pr_msg : M }.
Arguments pr_own {M}. Arguments pr_borrowed {M}. Arguments pr_msg {M}.
(* ..._proto_free: identity_priv.c:7-27, ephemeral_keypair_priv.c:8-19, node_priv.c:10-19,
   key_exchange.c:67-75 and 253-276, storage_priv.c:7-16, stream_key_priv.c:6-13,
   wickr_ctx.c:473-482; nothing is cleared *)
Definition h_proto_free {M} (p : hproto M) : H unit := h_free_all (map fst (pr_own p)).
Fixpoint h_touch_all (l : list block) : H unit :=
  match l with
  | [] => hret tt
  | b :: r => touch b ;;; h_touch_all r
  end.
(* the packed size is taken, a buffer made and filled and the message released:
   identity.c:118-143 and others *)
Definition h_pack {M} (pack : M -> bytes) (p : hproto M) : H (option hbuf) :=
  let c := pack (pr_msg p) in
  h_touch_all (map fst (pr_own p)) ;;;
  new <-? h_buffer_create_empty (blen c) else h_proto_free p ;;
  h_touch_all (pr_borrowed p) ;;;
  store (b_data new) c ;;;
  h_proto_free p ;;;
  hret (Some {| b_addr := b_addr new; b_data := b_data new; b_bytes := c |}).
(* buffer_priv.c:11-27 *)
Definition h_to_protobytes (buffer : hbuf) : H (option cell) :=
  c <-! h_bytes buffer ;;
  if blen c =? 0 then hret None
  else d <-? alloc T_data (repeat x00 (length c)) else hret tt ;; store d c ;;; hret (Some (d, c)).
(* cipher_priv.c:14-30 *)
Definition h_cipher_key_to_protobytes (key : hck) : H (option cell) :=
  serialized <-? h_cipher_key_serialize (Some key) else hret tt ;;
  res <-! h_to_protobytes serialized ;;
  h_buffer_destroy_zero (Some serialized) ;;;
  hret res.

(* identity_priv.c:29-92 *)
Definition h_identity_to_proto (is_private : bool) (identity : hid) : H (option (hproto pb_identity)) :=
  a <-? alloc T_proto [] else hret tt ;;
  touch (hid_addr identity) ;;;
  i <-! h_bytes (hid_identifier identity) ;;
  touch (hkey_addr (hid_key identity)) ;;;
  match (if is_private then hkey_pri (hid_key identity) else Some (hkey_pub (hid_key identity))) with
  | None => free a ;;; hret None
  | Some sig_key =>
      k <-! h_bytes sig_key ;;
      let mk own s := {| pr_own := own ++ [(a, [])]; pr_borrowed := [b_data (hid_identifier identity); b_data sig_key];
                         pr_msg := {| pi_identifier := Some i; pi_sig_key := Some k; pi_signature := s;
                                      pi_type := Some (match hid_type identity with ID_ROOT => 0 | ID_NODE => 1 end);
                                      pi_is_private := Some is_private |} |} in
      match hid_type identity with
      | ID_ROOT => hret (Some (mk [] None))
      | ID_NODE =>
          signature <-? h_ecdsa_result_serialize (hid_sig identity) else free a ;;
          d <-? h_to_protobytes signature else (h_buffer_destroy (Some signature) ;;; free a) ;;
          h_buffer_destroy (Some signature) ;;;
          hret (Some (mk [d] (Some (snd d))))
      end
  end.
(* identity_priv.c:154-202 *)
Definition h_chain_to_proto (is_private : bool) (c : hch) : H (option (hproto pb_chain)) :=
  touch (hch_addr c) ;;;
  root <-? h_identity_to_proto is_private (hch_root c) else hret tt ;;
  node <-? h_identity_to_proto is_private (hch_node c) else h_proto_free root ;;
  a <-? alloc T_proto [] else (h_proto_free root ;;; h_proto_free node) ;;
  hret (Some {| pr_own := pr_own node ++ pr_own root ++ [(a, [])]; pr_borrowed := pr_borrowed root ++ pr_borrowed node;
                pr_msg := {| pc_root := Some (pr_msg root); pc_node := Some (pr_msg node) |} |}).
(* ephemeral_keypair_priv.c:21-64 *)
Definition h_keypair_to_proto (keypair : hkp) : H (option (hproto pb_keypair)) :=
  touch (hkp_addr keypair) ;;;
  a <-? alloc T_proto [] else hret tt ;;
  touch (hkey_addr (hkp_key keypair)) ;;;
  k <-! h_bytes (hkey_pub (hkp_key keypair)) ;;
  let mk own s := {| pr_own := own ++ [(a, [])]; pr_borrowed := [b_data (hkey_pub (hkp_key keypair))];
                     pr_msg := {| pk_identifier := Some (hkp_identifier keypair); pk_ec_key := Some k; pk_signature := s |} |} in
  match hkp_sig keypair with
  | None => hret (Some (mk [] None))
  | Some s =>
      signature <-? h_ecdsa_result_serialize (Some s) else free a ;;
      d <-? h_to_protobytes signature else (h_buffer_destroy (Some signature) ;;; free a) ;;
      h_buffer_destroy (Some signature) ;;;
      hret (Some (mk [d] (Some (snd d))))
  end.
(* node_priv.c:21-56; the chain's message is not released when the last allocation fails *)
Definition h_node_to_proto (node : hnd) : H (option (hproto pb_node)) :=
  touch (hnd_addr node) ;;;
  kp <-? (match hnd_keypair node with Some k => h_keypair_to_proto k | None => hret None end) for hnd_keypair node else hret tt ;;
  let kp_own := match kp with Some p => pr_own p | None => [] end in
  let kp_free := match kp with Some p => h_proto_free p | None => hret tt end in
  c <-? h_chain_to_proto false (hnd_chain node) else kp_free ;;
  a <-? alloc T_proto [] else kp_free ;;
  d <-! h_bytes (hnd_dev_id node) ;;
  hret (Some {| pr_own := pr_own c ++ kp_own ++ [(a, [])];
                pr_borrowed := b_data (hnd_dev_id node) :: pr_borrowed c ++ (match kp with Some p => pr_borrowed p | None => [] end);
                pr_msg := {| pn_devid := Some d; pn_chain := Some (pr_msg c); pn_keypair := option_map pr_msg kp |} |}).
(* build, then pack and release: identity.c:118-143, identity.c:292-333, ephemeral_keypair.c:105-130,
   node.c:175-200, key_exchange.c:378-403, wickr_ctx.c:550-574 *)
Definition h_write {T M} (to_proto : T -> H (option (hproto M))) (pack : M -> bytes) (x : option T) : H (option hbuf) :=
  match x with
  | None => hret None
  | Some t => p <-? to_proto t else hret tt ;; h_pack pack p
  end.
Definition h_identity_serialize : option hid -> H (option hbuf) := h_write (h_identity_to_proto false) pb_identity_pack.
Definition h_chain_serialize : option hch -> H (option hbuf) := h_write (h_chain_to_proto false) pb_chain_pack.
Definition h_chain_serialize_private : option hch -> H (option hbuf) := h_write (h_chain_to_proto true) pb_chain_pack.
Definition h_keypair_serialize : option hkp -> H (option hbuf) := h_write h_keypair_to_proto pb_keypair_pack.
Definition h_node_serialize : option hnd -> H (option hbuf) := h_write h_node_to_proto pb_node_pack.

(* storage_priv.c:18-43; the allocation is not tested *)
Definition h_storage_keys_to_proto (keys : hsk) : H (option (hproto pb_storage_keys)) :=
  a <-# alloc T_proto [] ;;
  touch (hsk_addr keys) ;;;
  l <-? h_cipher_key_to_protobytes (hsk_local keys) else free a ;;
  r <-? h_cipher_key_to_protobytes (hsk_remote keys) else (free (fst l) ;;; free a) ;;
  hret (Some {| pr_own := [l; r; (a, [])]; pr_borrowed := [];
                pr_msg := {| ps_version := CURRENT_STORAGE_KEY_VERSION; ps_local := Some (snd l); ps_remote := Some (snd r) |} |}).
(* storage.c:54-73; the message is not tested *)
Definition h_storage_keys_serialize (keys : option hsk) : H (option hbuf) :=
  match keys with
  | None => hret None
  | Some k => p <-# h_storage_keys_to_proto k ;; h_pack pb_storage_keys_pack p
  end.
(* stream_key_priv.c:15-58; the message is not released when copying the key's bytes fails *)
Definition h_stream_key_to_proto (key : hst) : H (option (hproto pb_stream_key)) :=
  a <-? alloc T_proto [] else hret tt ;;
  touch (hst_addr key) ;;;
  key_buffer <-? h_cipher_key_serialize (Some (hst_cipher key)) else free a ;;
  d <-? h_to_protobytes key_buffer else h_buffer_destroy_zero (Some key_buffer) ;;
  h_buffer_destroy_zero (Some key_buffer) ;;;
  e <-! h_bytes (hst_evo key) ;;
  u <-! h_bytes_opt (hst_user key) ;;
  hret (Some {| pr_own := [d; (a, [])];
                pr_borrowed := b_data (hst_evo key) :: (match hst_user key with Some b => [b_data b] | None => [] end);
                pr_msg := {| pst_cipher_key := Some (snd d); pst_evo := Some e; pst_ppe := Some (hst_ppe key); pst_user := u |} |}).
(* stream_key.c:105-130; the message is not tested (line 113 tests the argument again) *)
Definition h_stream_key_serialize (key : option hst) : H (option hbuf) :=
  match key with
  | None => hret None
  | Some k => p <-# h_stream_key_to_proto k ;; h_pack pb_stream_key_pack p
  end.
(* root_keys.c:126-178; neither the argument nor the private key is tested; the message is on the stack *)
Definition h_root_keys_serialize (keys : option hrk) : H (option hbuf) :=
  match keys with
  | None => hub
  | Some k =>
      touch (hrk_addr k) ;;;
      touch (hkey_addr (hrk_sig k)) ;;;
      match hkey_pri (hrk_sig k) with
      | None => hub
      | Some pri =>
          s <-! h_bytes pri ;;
          node <-? h_cipher_key_serialize (Some (hrk_node k)) else hret tt ;;
          remote <-? h_cipher_key_serialize (Some (hrk_remote k)) else h_buffer_destroy_zero (Some node) ;;
          o <-! h_pack pb_root_keys_pack
                  {| pr_own := []; pr_borrowed := [b_data pri; b_data node; b_data remote];
                     pr_msg := {| pr_version := CURRENT_ROOT_KEY_VERSION; pr_node := Some (b_bytes node); pr_remote := Some (b_bytes remote);
                                  pr_signature := Some s |} |} ;;
          h_buffer_destroy_zero (Some remote) ;;;
          h_buffer_destroy_zero (Some node) ;;;
          hret o
      end
  end.
(* payload.c:65-107; the message is on the stack *)
Definition h_payload_serialize (payload : option hpy) : H (option hbuf) :=
  match payload with
  | None => hret None
  | Some p =>
      touch (hpy_addr p) ;;;
      touch (hme_addr (hpy_meta p)) ;;;
      t <-! h_bytes (hme_tag (hpy_meta p)) ;;
      b <-! h_bytes (hpy_body p) ;;
      h_pack pb_payload_pack
        {| pr_own := []; pr_borrowed := [b_data (hme_tag (hpy_meta p)); b_data (hpy_body p)];
           pr_msg := {| pp_meta := {| pm_eph := {| pe_ttl := hme_ttl (hpy_meta p);
                                                   pe_bor := if hme_bor (hpy_meta p) =? 0 then None else Some (hme_bor (hpy_meta p)) |};
                                      pm_tag := Some t; pm_type := Some (hme_type (hpy_meta p)) |};
                        pp_body := b |} |}
  end.
(* key_exchange.c:77-111 *)
Definition h_exchange_to_proto (exchange : option hkx) : H (option (hproto pb_exchange)) :=
  match exchange with
  | None => hret None
  | Some x =>
      a <-? alloc T_proto [] else hret tt ;;
      touch (hkx_addr x) ;;;
      data <-? h_cipher_result_serialize (Some (hkx_text x)) else free a ;;
      d <-? h_to_protobytes data else (free a ;;; h_buffer_destroy (Some data)) ;;
      h_buffer_destroy (Some data) ;;;
      i <-! h_bytes (hkx_id x) ;;
      hret (Some {| pr_own := [d; (a, [])]; pr_borrowed := [b_data (hkx_id x)];
                    pr_msg := {| px_id := i; px_key_id := hkx_key_id x; px_data := snd d |} |})
  end.
Definition protos_own {M} (l : list (hproto M)) : list cell := flat_map pr_own l.
(* key_exchange.c:330-376, loop, with 253-266; [done]: the messages made so far *)
Fixpoint h_exchanges_to_proto (array : block) (l : list (option hkx)) (done : list (hproto pb_exchange)) : H (option (list (hproto pb_exchange))) :=
  match l with
  | [] => hret (Some done)
  | x :: r =>
      p <-? h_exchange_to_proto x else (h_free_all (map fst (protos_own done)) ;;; free array) ;;
      h_exchanges_to_proto array r (done ++ [p])
  end.
(* key_exchange.c:330-376; wickr_alloc_zero(0) is NULL *)
Definition h_exchange_set_to_proto (s : hxs) : H (option (hproto pb_exchange_set)) :=
  touch (hxs_addr s) ;;;
  touch (harr_addr (hxs_items s)) ;;;
  match harr_items (hxs_items s) with
  | [] => hret None
  | items =>
      array <-? alloc T_proto [] else hret tt ;;
      l <-? h_exchanges_to_proto array items [] else hret tt ;;
      a <-? alloc T_proto [] else (h_free_all (map fst (protos_own l)) ;;; free array) ;;
      touch (hkey_addr (hxs_sender s)) ;;;
      k <-! h_bytes (hkey_pub (hxs_sender s)) ;;
      hret (Some {| pr_own := protos_own l ++ [(array, []); (a, [])]; pr_borrowed := b_data (hkey_pub (hxs_sender s)) :: flat_map pr_borrowed l;
                    pr_msg := {| py_sender := k; py_exchanges := map pr_msg l |} |})
  end.
Definition h_exchange_set_serialize : option hxs -> H (option hbuf) := h_write h_exchange_set_to_proto pb_exchange_set_pack.
(* protocol.c:382-410; a signature of the wrong length is not released *)
Definition h_packet_serialize (packet : option hpt) : H (option hbuf) :=
  match packet with
  | None => hret None
  | Some p =>
      touch (hpt_addr p) ;;;
      touch (hsig_addr (hpt_sig p)) ;;;
      sig_data <-? h_ecdsa_result_serialize (Some (hpt_sig p)) else hret tt ;;
      s <-! h_bytes sig_data ;;
      if negb (blen s =? signature_size (hsig_curve (hpt_sig p))) then hret None
      else
        c <-! h_bytes (hpt_content p) ;;
        o <-! h_concat_multi [Some [n2b (hpt_version p)]; Some [n2b (curve_id (hsig_curve (hpt_sig p)))]; Some c; Some s] ;;
        h_buffer_destroy (Some sig_data) ;;;
        hret o
  end.
(* transport_packet.c:25-81; the buffer is filled in one step *)
Definition h_tmeta_serialize (m : tmeta) : H (option hbuf) := c <-: lift (tmeta_serialize m) ;; h_buffer_create c.
(* transport_packet.c:192-209 *)
Definition h_tpacket_serialize (pkt : option htp) : H (option hbuf) :=
  match pkt with
  | None => hret None
  | Some p =>
      touch (htp_addr p) ;;;
      meta <-? h_tmeta_serialize (htp_meta p) else hret tt ;;
      m <-! h_bytes meta ;;
      b <-! h_bytes (htp_body p) ;;
      c <-! h_bytes_opt (htp_mac p) ;;
      o <-! h_concat_multi [Some m; Some b; c] ;;
      h_buffer_destroy (Some meta) ;;;
      hret o
  end.
(* wickr_ctx.c:484-518 *)
Definition h_ctx_to_proto (ctx : hcx) : H (option (hproto pb_ctx)) :=
  touch (hcx_addr ctx) ;;;
  c <-? h_chain_to_proto true (hcx_chain ctx) else hret tt ;;
  s <-? h_storage_keys_to_proto (hcx_storage ctx) else h_proto_free c ;;
  a <-? alloc T_proto [] else (h_proto_free c ;;; h_proto_free s) ;;
  hret (Some {| pr_own := pr_own c ++ pr_own s ++ [(a, [])]; pr_borrowed := pr_borrowed c ++ pr_borrowed s;
                pr_msg := {| px_storage := Some (pr_msg s); px_chain := Some (pr_msg c) |} |}).
(* wickr_ctx.c:550-574 *)
Definition h_ctx_serialize : option hcx -> H (option hbuf) := h_write h_ctx_to_proto pb_ctx_pack.
