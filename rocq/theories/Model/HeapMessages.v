(* More create, copy and destroy functions on the heap of Model/Heap.v: identities, nodes,
   messages, stored keys, streams, transports and contexts.  Conventions as in HeapObjects.v. *)
From Verif.Base Require Import Bytes.
From Verif.Model Require Import Buffer Cipher Ecdsa Kdf Prims Engine Identity Node Stream TransportPacket EcdhCipher Handshake Transport Keys Payload Exchange Packet Ctx Heap HeapObjects.
Local Open Scope N_scope.
Local Open Scope h_scope.

(* ---- identity.c ---- *)
Record hid := { hid_addr : block; hid_type : identity_type; hid_identifier : hbuf; hid_key : hkey; hid_sig : option hsig }.
Definition id_cells (x : hid) : list cell :=
  struct_cell (hid_addr x) ++ buf_cells (hid_identifier x) ++ key_cells (hid_key x) ++ cells_opt sig_cells (hid_sig x).
Definition id_value (x : hid) : identity :=
  {| id_type := hid_type x; id_identifier := b_bytes (hid_identifier x); id_key := key_value (hid_key x);
     id_signature := option_map sig_value (hid_sig x) |}.
(* identity.c:6-24 *)
Definition h_identity_create (ty : identity_type) (identifier : option hbuf) (key : option hkey) (sig : option hsig) : H (option hid) :=
  match identifier with
  | None => hret None
  | Some i =>
      touch (b_addr i) ;;;
      if MAX_IDENTIFIER_LEN <=? blen (b_bytes i) then hret None
      else match key with
           | None => hret None
           | Some k => x <-? alloc T_identity [] else hret tt ;;
                       hret (Some {| hid_addr := x; hid_type := ty; hid_identifier := i; hid_key := k; hid_sig := sig |})
           end
  end.
(* identity.c:73-103; a signature that cannot be copied is dropped *)
Definition h_identity_copy (source : option hid) : H (option hid) :=
  match source with
  | None => hret None
  | Some s =>
      touch (hid_addr s) ;;;
      i <-? h_buffer_copy (Some (hid_identifier s)) else hret tt ;;
      k <-? h_ec_key_copy (Some (hid_key s)) else h_buffer_destroy (Some i) ;;
      g <-! h_ecdsa_result_copy (hid_sig s) ;;
      c <-? h_identity_create (hid_type s) (Some i) (Some k) g
        else (h_buffer_destroy (Some i) ;;; h_ec_key_destroy (Some k) ;;; h_ecdsa_result_destroy g) ;;
      hret (Some c)
  end.
(* identity.c:105-116 *)
Definition h_identity_destroy (identity : option hid) : H unit :=
  match identity with
  | None => hret tt
  | Some x => touch (hid_addr x) ;;; h_buffer_destroy (Some (hid_identifier x)) ;;; h_ec_key_destroy (Some (hid_key x)) ;;;
              h_ecdsa_result_destroy (hid_sig x) ;;; free (hid_addr x)
  end.

Record hch := { hch_addr : block; hch_root : hid; hch_node : hid; hch_status : status; hch_cache : option hbuf }.
Definition ch_cells (x : hch) : list cell :=
  struct_cell (hch_addr x) ++ id_cells (hch_root x) ++ id_cells (hch_node x) ++ cells_opt buf_cells (hch_cache x).
Definition ch_value (x : hch) : chain :=
  {| ch_root := id_value (hch_root x); ch_node := id_value (hch_node x); ch_status := hch_status x;
     ch_cache := option_map b_bytes (hch_cache x) |}.
(* identity.c:212-229 *)
Definition h_chain_create (root node : option hid) : H (option hch) :=
  match root, node with
  | Some r, Some n => x <-? alloc T_identity_chain [] else hret tt ;;
                      hret (Some {| hch_addr := x; hch_root := r; hch_node := n; hch_status := S_UNKNOWN; hch_cache := None |})
  | _, _ => hret None
  end.
(* identity.c:231-271 *)
Definition h_chain_copy (source : option hch) : H (option hch) :=
  match source with
  | None => hret None
  | Some s =>
      touch (hch_addr s) ;;;
      r <-? h_identity_copy (Some (hch_root s)) else hret tt ;;
      n <-? h_identity_copy (Some (hch_node s)) else h_identity_destroy (Some r) ;;
      o <-? h_buffer_copy (hch_cache s) for hch_cache s else (h_identity_destroy (Some r) ;;; h_identity_destroy (Some n)) ;;
      c <-? h_chain_create (Some r) (Some n)
        else (h_identity_destroy (Some r) ;;; h_identity_destroy (Some n) ;;; h_buffer_destroy o) ;;
      hret (Some {| hch_addr := hch_addr c; hch_root := hch_root c; hch_node := hch_node c; hch_status := hch_status s; hch_cache := o |})
  end.
(* identity.c:353-365 *)
Definition h_chain_destroy (chain : option hch) : H unit :=
  match chain with
  | None => hret tt
  | Some x => touch (hch_addr x) ;;; h_identity_destroy (Some (hch_node x)) ;;; h_identity_destroy (Some (hch_root x)) ;;;
              h_buffer_destroy (hch_cache x) ;;; free (hch_addr x)
  end.

(* ---- ephemeral_keypair.c ---- *)
Record hkp := { hkp_addr : block; hkp_identifier : N; hkp_key : hkey; hkp_sig : option hsig }.
Definition kp_cells (x : hkp) : list cell := struct_cell (hkp_addr x) ++ key_cells (hkp_key x) ++ cells_opt sig_cells (hkp_sig x).
Definition kp_value (x : hkp) : keypair :=
  {| kp_identifier := hkp_identifier x; kp_key := key_value (hkp_key x); kp_signature := option_map sig_value (hkp_sig x) |}.
(* ephemeral_keypair.c:6-23 *)
Definition h_keypair_create (identifier : N) (key : option hkey) (sig : option hsig) : H (option hkp) :=
  match key with
  | None => hret None
  | Some k => x <-? alloc T_ephemeral_keypair [] else hret tt ;;
              hret (Some {| hkp_addr := x; hkp_identifier := identifier; hkp_key := k; hkp_sig := sig |})
  end.
(* ephemeral_keypair.c:55-82 *)
Definition h_keypair_copy (source : option hkp) : H (option hkp) :=
  match source with
  | None => hret None
  | Some s =>
      touch (hkp_addr s) ;;;
      k <-? h_ec_key_copy (Some (hkp_key s)) else hret tt ;;
      g <-? h_ecdsa_result_copy (hkp_sig s) for hkp_sig s else h_ec_key_destroy (Some k) ;;
      c <-? h_keypair_create (hkp_identifier s) (Some k) g else (h_ec_key_destroy (Some k) ;;; h_ecdsa_result_destroy g) ;;
      hret (Some c)
  end.
(* ephemeral_keypair.c:93-103 *)
Definition h_keypair_destroy (keypair : option hkp) : H unit :=
  match keypair with
  | None => hret tt
  | Some x => touch (hkp_addr x) ;;; h_ec_key_destroy (Some (hkp_key x)) ;;; h_ecdsa_result_destroy (hkp_sig x) ;;; free (hkp_addr x)
  end.

(* ---- node.c ---- *)
Record hnd := { hnd_addr : block; hnd_dev_id : hbuf; hnd_chain : hch; hnd_keypair : option hkp; hnd_status : status; hnd_cache : option hbuf }.
Definition nd_cells (x : hnd) : list cell :=
  struct_cell (hnd_addr x) ++ buf_cells (hnd_dev_id x) ++ ch_cells (hnd_chain x) ++ cells_opt kp_cells (hnd_keypair x) ++
  cells_opt buf_cells (hnd_cache x).
Definition nd_value (x : hnd) : node :=
  {| nd_dev_id := b_bytes (hnd_dev_id x); nd_chain := ch_value (hnd_chain x); nd_keypair := option_map kp_value (hnd_keypair x);
     nd_status := hnd_status x; nd_cache := option_map b_bytes (hnd_cache x) |}.
(* node.c:9-26 *)
Definition h_node_create (dev_id : option hbuf) (ch : option hch) (kp : option hkp) : H (option hnd) :=
  match dev_id, ch with
  | Some d, Some c => x <-? alloc T_node [] else hret tt ;;
                      hret (Some {| hnd_addr := x; hnd_dev_id := d; hnd_chain := c; hnd_keypair := kp; hnd_status := S_UNKNOWN; hnd_cache := None |})
  | _, _ => hret None
  end.
(* node.c:79-129 *)
Definition h_node_copy (source : option hnd) : H (option hnd) :=
  match source with
  | None => hret None
  | Some s =>
      touch (hnd_addr s) ;;;
      d <-? h_buffer_copy (Some (hnd_dev_id s)) else hret tt ;;
      c <-? h_chain_copy (Some (hnd_chain s)) else h_buffer_destroy (Some d) ;;
      k <-? h_keypair_copy (hnd_keypair s) for hnd_keypair s else (h_buffer_destroy (Some d) ;;; h_chain_destroy (Some c)) ;;
      o <-? h_buffer_copy (hnd_cache s) for hnd_cache s
        else (h_buffer_destroy (Some d) ;;; h_chain_destroy (Some c) ;;; h_keypair_destroy k) ;;
      n <-? h_node_create (Some d) (Some c) k
        else (h_buffer_destroy (Some d) ;;; h_chain_destroy (Some c) ;;; h_keypair_destroy k ;;; h_buffer_destroy o) ;;
      hret (Some {| hnd_addr := hnd_addr n; hnd_dev_id := hnd_dev_id n; hnd_chain := hnd_chain n; hnd_keypair := hnd_keypair n;
                    hnd_status := hnd_status s; hnd_cache := o |})
  end.
(* node.c:131-143 *)
Definition h_node_destroy (node : option hnd) : H unit :=
  match node with
  | None => hret tt
  | Some x => touch (hnd_addr x) ;;; h_buffer_destroy (Some (hnd_dev_id x)) ;;; h_chain_destroy (Some (hnd_chain x)) ;;;
              h_keypair_destroy (hnd_keypair x) ;;; h_buffer_destroy (hnd_cache x) ;;; free (hnd_addr x)
  end.
(* node.c:161-164; node.c:166-173 leaves the nodes alone (array.c:139-159 with destroy_items =
   false); array.c:139-159 with destroy_items = true releases both *)
Definition h_node_array_copy : option (harr hnd) -> H (option (harr hnd)) := h_array_copy h_node_copy h_node_destroy.
Definition h_node_array_release : option (harr hnd) -> H unit := h_array_destroy h_node_destroy.
Definition h_node_array_destroy : option (harr hnd) -> H unit := h_array_destroy (fun _ => hret tt).

(* ---- packet_meta.c, payload.c ---- *)
Record hme := { hme_addr : block; hme_ttl : N; hme_bor : N; hme_tag : hbuf; hme_type : N }.
Definition me_cells (x : hme) : list cell := struct_cell (hme_addr x) ++ buf_cells (hme_tag x).
Definition me_value (x : hme) : packet_meta :=
  {| me_ttl := hme_ttl x; me_bor := hme_bor x; me_tag := b_bytes (hme_tag x); me_type := hme_type x |}.
(* packet_meta.c:5-17; the allocation is not tested *)
Definition h_packet_meta_create (ttl bor : N) (tag : option hbuf) (ty : N) : H (option hme) :=
  match tag with
  | None => hret None
  | Some t => x <-# alloc T_packet_meta [] ;; hret (Some {| hme_addr := x; hme_ttl := ttl; hme_bor := bor; hme_tag := t; hme_type := ty |})
  end.
(* packet_meta.c:19-38 *)
Definition h_packet_meta_copy (source : option hme) : H (option hme) :=
  match source with
  | None => hret None
  | Some s =>
      touch (hme_addr s) ;;;
      t <-? h_buffer_copy (Some (hme_tag s)) else hret tt ;;
      c <-? h_packet_meta_create (hme_ttl s) (hme_bor s) (Some t) (hme_type s) else h_buffer_destroy (Some t) ;;
      hret (Some c)
  end.
(* packet_meta.c:40-49 *)
Definition h_packet_meta_destroy (meta : option hme) : H unit :=
  match meta with
  | None => hret tt
  | Some x => touch (hme_addr x) ;;; h_buffer_destroy (Some (hme_tag x)) ;;; free (hme_addr x)
  end.

Record hpy := { hpy_addr : block; hpy_meta : hme; hpy_body : hbuf }.
Definition py_cells (x : hpy) : list cell := struct_cell (hpy_addr x) ++ me_cells (hpy_meta x) ++ buf_cells (hpy_body x).
Definition py_value (x : hpy) : payload := {| py_meta := me_value (hpy_meta x); py_body := b_bytes (hpy_body x) |}.
(* payload.c:6-22 *)
Definition h_payload_create (meta : option hme) (body : option hbuf) : H (option hpy) :=
  match meta, body with
  | Some m, Some b => x <-? alloc T_payload [] else hret tt ;; hret (Some {| hpy_addr := x; hpy_meta := m; hpy_body := b |})
  | _, _ => hret None
  end.
(* payload.c:24-51 *)
Definition h_payload_copy (source : option hpy) : H (option hpy) :=
  match source with
  | None => hret None
  | Some s =>
      touch (hpy_addr s) ;;;
      m <-? h_packet_meta_copy (Some (hpy_meta s)) else hret tt ;;
      b <-? h_buffer_copy (Some (hpy_body s)) else h_packet_meta_destroy (Some m) ;;
      c <-? h_payload_create (Some m) (Some b) else (h_packet_meta_destroy (Some m) ;;; h_buffer_destroy_zero (Some b)) ;;
      hret (Some c)
  end.
(* payload.c:53-63 *)
Definition h_payload_destroy (payload : option hpy) : H unit :=
  match payload with
  | None => hret tt
  | Some x => touch (hpy_addr x) ;;; h_packet_meta_destroy (Some (hpy_meta x)) ;;; h_buffer_destroy_zero (Some (hpy_body x)) ;;; free (hpy_addr x)
  end.

(* ---- key_exchange.c ---- *)
Record hkx := { hkx_addr : block; hkx_id : hbuf; hkx_key_id : N; hkx_text : hcr }.
Definition kx_cells (x : hkx) : list cell := struct_cell (hkx_addr x) ++ buf_cells (hkx_id x) ++ cr_cells (hkx_text x).
Definition kx_value (x : hkx) : key_exchange := {| kx_id := b_bytes (hkx_id x); kx_key_id := hkx_key_id x; kx_text := cr_value (hkx_text x) |}.
(* key_exchange.c:10-24; the allocation is not tested *)
Definition h_key_exchange_create (id : option hbuf) (key_id : N) (text : option hcr) : H (option hkx) :=
  match id, text with
  | Some i, Some t => x <-# alloc T_key_exchange [] ;; hret (Some {| hkx_addr := x; hkx_id := i; hkx_key_id := key_id; hkx_text := t |})
  | _, _ => hret None
  end.
(* key_exchange.c:26-53 *)
Definition h_key_exchange_copy (source : option hkx) : H (option hkx) :=
  match source with
  | None => hret None
  | Some s =>
      touch (hkx_addr s) ;;;
      t <-? h_cipher_result_copy (Some (hkx_text s)) else hret tt ;;
      i <-? h_buffer_copy (Some (hkx_id s)) else h_cipher_result_destroy (Some t) ;;
      c <-? h_key_exchange_create (Some i) (hkx_key_id s) (Some t) else (h_cipher_result_destroy (Some t) ;;; h_buffer_destroy (Some i)) ;;
      hret (Some c)
  end.
(* key_exchange.c:55-65 *)
Definition h_key_exchange_destroy (exchange : option hkx) : H unit :=
  match exchange with
  | None => hret tt
  | Some x => touch (hkx_addr x) ;;; h_cipher_result_destroy (Some (hkx_text x)) ;;; h_buffer_destroy (Some (hkx_id x)) ;;; free (hkx_addr x)
  end.

(* key_exchange.c:156-168, 170-176 *)
Definition h_exchange_array_copy : option (harr hkx) -> H (option (harr hkx)) := h_array_copy h_key_exchange_copy h_key_exchange_destroy.
Definition h_exchange_array_destroy : option (harr hkx) -> H unit := h_array_destroy h_key_exchange_destroy.
Definition xa_cells : harr hkx -> list cell := arr_cells kx_cells.
Definition xa_value : harr hkx -> list (option key_exchange) := arr_value kx_value.

Record hxs := { hxs_addr : block; hxs_sender : hkey; hxs_items : harr hkx }.
Definition xs_cells (x : hxs) : list cell := struct_cell (hxs_addr x) ++ key_cells (hxs_sender x) ++ xa_cells (hxs_items x).
Definition xs_value (x : hxs) : exchange_set := {| xs_sender := key_value (hxs_sender x); xs_items := xa_value (hxs_items x) |}.
(* key_exchange.c:178-194 *)
Definition h_exchange_set_create (sender : option hkey) (items : option (harr hkx)) : H (option hxs) :=
  match sender, items with
  | Some k, Some l => x <-? alloc T_key_exchange_set [] else hret tt ;; hret (Some {| hxs_addr := x; hxs_sender := k; hxs_items := l |})
  | _, _ => hret None
  end.
(* key_exchange.c:213-240 *)
Definition h_exchange_set_copy (source : option hxs) : H (option hxs) :=
  match source with
  | None => hret None
  | Some s =>
      touch (hxs_addr s) ;;;
      k <-? h_ec_key_copy (Some (hxs_sender s)) else hret tt ;;
      l <-? h_exchange_array_copy (Some (hxs_items s)) else h_ec_key_destroy (Some k) ;;
      c <-? h_exchange_set_create (Some k) (Some l) else (h_ec_key_destroy (Some k) ;;; h_exchange_array_destroy (Some l)) ;;
      hret (Some c)
  end.
(* key_exchange.c:242-252 *)
Definition h_exchange_set_destroy (header : option hxs) : H unit :=
  match header with
  | None => hret tt
  | Some x => touch (hxs_addr x) ;;; h_ec_key_destroy (Some (hxs_sender x)) ;;; h_exchange_array_destroy (Some (hxs_items x)) ;;; free (hxs_addr x)
  end.

(* ---- protocol.c ---- *)
Record hpt := { hpt_addr : block; hpt_version : N; hpt_content : hbuf; hpt_sig : hsig }.
Definition pt_cells (x : hpt) : list cell := struct_cell (hpt_addr x) ++ buf_cells (hpt_content x) ++ sig_cells (hpt_sig x).
Definition pt_value (x : hpt) : packet := {| pt_version := hpt_version x; pt_content := b_bytes (hpt_content x); pt_signature := sig_value (hpt_sig x) |}.
(* protocol.c:239-256 *)
Definition h_packet_create (version : N) (content : option hbuf) (sig : option hsig) : H (option hpt) :=
  match content, sig with
  | Some c, Some s => x <-? alloc T_packet [] else hret tt ;; hret (Some {| hpt_addr := x; hpt_version := version; hpt_content := c; hpt_sig := s |})
  | _, _ => hret None
  end.
(* protocol.c:412-439 *)
Definition h_packet_copy (source : option hpt) : H (option hpt) :=
  match source with
  | None => hret None
  | Some s =>
      touch (hpt_addr s) ;;;
      b <-? h_buffer_copy (Some (hpt_content s)) else hret tt ;;
      g <-? h_ecdsa_result_copy (Some (hpt_sig s)) else h_buffer_destroy (Some b) ;;
      c <-? h_packet_create (hpt_version s) (Some b) (Some g) else (h_buffer_destroy (Some b) ;;; h_ecdsa_result_destroy (Some g)) ;;
      hret (Some c)
  end.
(* protocol.c:441-451 *)
Definition h_packet_destroy (packet : option hpt) : H unit :=
  match packet with
  | None => hret tt
  | Some x => touch (hpt_addr x) ;;; h_buffer_destroy (Some (hpt_content x)) ;;; h_ecdsa_result_destroy (Some (hpt_sig x)) ;;; free (hpt_addr x)
  end.

Record hpa := { hpa_addr : block; hpa_set : option hxs; hpa_exchange : option hkx; hpa_payload : option hcr; hpa_status : sig_status; hpa_err : decode_error }.
Definition pa_cells (x : hpa) : list cell :=
  struct_cell (hpa_addr x) ++ cells_opt xs_cells (hpa_set x) ++ cells_opt kx_cells (hpa_exchange x) ++ cells_opt cr_cells (hpa_payload x).
Definition pa_value (x : hpa) : parse_result :=
  {| pa_set := option_map xs_value (hpa_set x); pa_exchange := option_map kx_value (hpa_exchange x);
     pa_payload := option_map cr_value (hpa_payload x); pa_status := hpa_status x; pa_err := hpa_err x |}.
(* protocol.c:453-472 *)
Definition h_parse_result_create (set : option hxs) (ex : option hkx) (pl : option hcr) (st : sig_status) (err : decode_error) : H (option hpa) :=
  x <-? alloc T_parse_result [] else hret tt ;;
  hret (Some {| hpa_addr := x; hpa_set := set; hpa_exchange := ex; hpa_payload := pl; hpa_status := st; hpa_err := err |}).
(* protocol.c:484-503; what cannot be copied is dropped *)
Definition h_parse_result_copy (source : option hpa) : H (option hpa) :=
  match source with
  | None => hret None
  | Some s =>
      touch (hpa_addr s) ;;;
      x <-! h_exchange_set_copy (hpa_set s) ;;
      p <-! h_cipher_result_copy (hpa_payload s) ;;
      e <-! h_key_exchange_copy (hpa_exchange s) ;;
      c <-? h_parse_result_create x e p (hpa_status s) (hpa_err s)
        else (h_exchange_set_destroy x ;;; h_cipher_result_destroy p ;;; h_key_exchange_destroy e) ;;
      hret (Some c)
  end.
(* protocol.c:505-516 *)
Definition h_parse_result_destroy (result : option hpa) : H unit :=
  match result with
  | None => hret tt
  | Some x => touch (hpa_addr x) ;;; h_exchange_set_destroy (hpa_set x) ;;; h_cipher_result_destroy (hpa_payload x) ;;;
              h_key_exchange_destroy (hpa_exchange x) ;;; free (hpa_addr x)
  end.

Record hde := { hde_addr : block; hde_err : decode_error; hde_payload : option hpy; hde_key : option hck }.
Definition de_cells (x : hde) : list cell := struct_cell (hde_addr x) ++ cells_opt py_cells (hde_payload x) ++ cells_opt ck_cells (hde_key x).
Definition de_value (x : hde) : decode_result :=
  {| de_err := hde_err x; de_payload := option_map py_value (hde_payload x); de_key := option_map ck_value (hde_key x) |}.
(* protocol.c:518-531 *)
Definition h_decode_result_create (err : decode_error) (p : option hpy) (k : option hck) : H (option hde) :=
  x <-? alloc T_decode_result [] else hret tt ;; hret (Some {| hde_addr := x; hde_err := err; hde_payload := p; hde_key := k |}).
(* protocol.c:544-560; what cannot be copied is dropped, and the key is not released when the
   last step fails *)
Definition h_decode_result_copy (source : option hde) : H (option hde) :=
  match source with
  | None => hret None
  | Some s =>
      touch (hde_addr s) ;;;
      p <-! h_payload_copy (hde_payload s) ;;
      k <-! h_cipher_key_copy (hde_key s) ;;
      c <-? h_decode_result_create (hde_err s) p k else h_payload_destroy p ;;
      hret (Some c)
  end.
(* protocol.c:562-571 *)
Definition h_decode_result_destroy (result : option hde) : H unit :=
  match result with
  | None => hret tt
  | Some x => touch (hde_addr x) ;;; h_cipher_key_destroy (hde_key x) ;;; h_payload_destroy (hde_payload x) ;;; free (hde_addr x)
  end.

(* ---- encoder_result.c ---- *)
Record hen := { hen_addr : block; hen_key : hck; hen_packet : hpt }.
Definition en_cells (x : hen) : list cell := struct_cell (hen_addr x) ++ ck_cells (hen_key x) ++ pt_cells (hen_packet x).
Definition en_value (x : hen) : encoder_result := {| en_key := ck_value (hen_key x); en_packet := pt_value (hen_packet x) |}.
(* encoder_result.c:5-21 *)
Definition h_encoder_result_create (k : option hck) (p : option hpt) : H (option hen) :=
  match k, p with
  | Some a, Some b => x <-? alloc T_encoder_result [] else hret tt ;; hret (Some {| hen_addr := x; hen_key := a; hen_packet := b |})
  | _, _ => hret None
  end.
(* encoder_result.c:23-50 *)
Definition h_encoder_result_copy (source : option hen) : H (option hen) :=
  match source with
  | None => hret None
  | Some s =>
      touch (hen_addr s) ;;;
      k <-? h_cipher_key_copy (Some (hen_key s)) else hret tt ;;
      p <-? h_packet_copy (Some (hen_packet s)) else h_cipher_key_destroy (Some k) ;;
      c <-? h_encoder_result_create (Some k) (Some p) else (h_cipher_key_destroy (Some k) ;;; h_packet_destroy (Some p)) ;;
      hret (Some c)
  end.
(* encoder_result.c:52-62 *)
Definition h_encoder_result_destroy (encode : option hen) : H unit :=
  match encode with
  | None => hret tt
  | Some x => touch (hen_addr x) ;;; h_cipher_key_destroy (Some (hen_key x)) ;;; h_packet_destroy (Some (hen_packet x)) ;;; free (hen_addr x)
  end.

(* ---- root_keys.c, storage.c, devinfo.c ---- *)
Record hrk := { hrk_addr : block; hrk_sig : hkey; hrk_node : hck; hrk_remote : hck }.
Definition rk_cells (x : hrk) : list cell := struct_cell (hrk_addr x) ++ key_cells (hrk_sig x) ++ ck_cells (hrk_node x) ++ ck_cells (hrk_remote x).
Definition rk_value (x : hrk) : root_keys := {| rk_signature := key_value (hrk_sig x); rk_node := ck_value (hrk_node x); rk_remote := ck_value (hrk_remote x) |}.
(* root_keys.c:10-28 *)
Definition h_root_keys_create (s : option hkey) (n r : option hck) : H (option hrk) :=
  match s, n, r with
  | Some a, Some b, Some c => x <-? alloc T_root_keys [] else hret tt ;; hret (Some {| hrk_addr := x; hrk_sig := a; hrk_node := b; hrk_remote := c |})
  | _, _, _ => hret None
  end.
(* root_keys.c:237-273 *)
Definition h_root_keys_copy (source : option hrk) : H (option hrk) :=
  match source with
  | None => hret None
  | Some s =>
      touch (hrk_addr s) ;;;
      g <-? h_ec_key_copy (Some (hrk_sig s)) else hret tt ;;
      n <-? h_cipher_key_copy (Some (hrk_node s)) else h_ec_key_destroy (Some g) ;;
      r <-? h_cipher_key_copy (Some (hrk_remote s)) else (h_ec_key_destroy (Some g) ;;; h_cipher_key_destroy (Some n)) ;;
      c <-? h_root_keys_create (Some g) (Some n) (Some r)
        else (h_ec_key_destroy (Some g) ;;; h_cipher_key_destroy (Some n) ;;; h_cipher_key_destroy (Some r)) ;;
      hret (Some c)
  end.
(* root_keys.c:275-286 *)
Definition h_root_keys_destroy (keys : option hrk) : H unit :=
  match keys with
  | None => hret tt
  | Some x => touch (hrk_addr x) ;;; h_ec_key_destroy (Some (hrk_sig x)) ;;; h_cipher_key_destroy (Some (hrk_node x)) ;;;
              h_cipher_key_destroy (Some (hrk_remote x)) ;;; free (hrk_addr x)
  end.

Record hsk := { hsk_addr : block; hsk_local : hck; hsk_remote : hck }.
Definition sk_cells (x : hsk) : list cell := struct_cell (hsk_addr x) ++ ck_cells (hsk_local x) ++ ck_cells (hsk_remote x).
Definition sk_value (x : hsk) : storage_keys := {| sk_local := ck_value (hsk_local x); sk_remote := ck_value (hsk_remote x) |}.
(* storage.c:7-23 *)
Definition h_storage_keys_create (l r : option hck) : H (option hsk) :=
  match l, r with
  | Some a, Some b => x <-? alloc T_storage_keys [] else hret tt ;; hret (Some {| hsk_addr := x; hsk_local := a; hsk_remote := b |})
  | _, _ => hret None
  end.
(* storage.c:25-52 *)
Definition h_storage_keys_copy (source : option hsk) : H (option hsk) :=
  match source with
  | None => hret None
  | Some s =>
      touch (hsk_addr s) ;;;
      l <-? h_cipher_key_copy (Some (hsk_local s)) else hret tt ;;
      r <-? h_cipher_key_copy (Some (hsk_remote s)) else h_cipher_key_destroy (Some l) ;;
      c <-? h_storage_keys_create (Some l) (Some r) else (h_cipher_key_destroy (Some l) ;;; h_cipher_key_destroy (Some r)) ;;
      hret (Some c)
  end.
(* storage.c:90-100 *)
Definition h_storage_keys_destroy (keys : option hsk) : H unit :=
  match keys with
  | None => hret tt
  | Some x => touch (hsk_addr x) ;;; h_cipher_key_destroy (Some (hsk_local x)) ;;; h_cipher_key_destroy (Some (hsk_remote x)) ;;; free (hsk_addr x)
  end.

Record hdi := { hdi_addr : block; hdi_dev : hbuf; hdi_system : option hbuf; hdi_msg : hbuf; hdi_srv : hbuf }.
Definition di_cells (x : hdi) : list cell :=
  struct_cell (hdi_addr x) ++ buf_cells (hdi_dev x) ++ cells_opt buf_cells (hdi_system x) ++ buf_cells (hdi_msg x) ++ buf_cells (hdi_srv x).
Definition di_value (x : hdi) : dev_info :=
  {| di_dev_salt := b_bytes (hdi_dev x); di_system_salt := option_map b_bytes (hdi_system x); di_msg_proto_id := b_bytes (hdi_msg x);
     di_srv_comm_id := b_bytes (hdi_srv x) |}.
(* devinfo.c:5-23 *)
Definition h_dev_info_create (d s m c : option hbuf) : H (option hdi) :=
  match d, m, c with
  | Some a, Some b, Some e => x <-? alloc T_dev_info [] else hret tt ;; hret (Some {| hdi_addr := x; hdi_dev := a; hdi_system := s; hdi_msg := b; hdi_srv := e |})
  | _, _, _ => hret None
  end.
(* devinfo.c:103-150 *)
Definition h_dev_info_copy (source : option hdi) : H (option hdi) :=
  match source with
  | None => hret None
  | Some i =>
      touch (hdi_addr i) ;;;
      s <-? h_buffer_copy (hdi_system i) else hret tt ;;
      d <-? h_buffer_copy (Some (hdi_dev i)) else h_buffer_destroy_zero (Some s) ;;
      m <-? h_buffer_copy (Some (hdi_msg i)) else (h_buffer_destroy_zero (Some s) ;;; h_buffer_destroy_zero (Some d)) ;;
      e <-? h_buffer_copy (Some (hdi_srv i))
        else (h_buffer_destroy_zero (Some s) ;;; h_buffer_destroy_zero (Some d) ;;; h_buffer_destroy_zero (Some m)) ;;
      c <-? h_dev_info_create (Some d) (Some s) (Some m) (Some e)
        else (h_buffer_destroy_zero (Some s) ;;; h_buffer_destroy_zero (Some d) ;;; h_buffer_destroy_zero (Some m) ;;; h_buffer_destroy_zero (Some e)) ;;
      hret (Some c)
  end.
(* devinfo.c:152-165 *)
Definition h_dev_info_destroy (info : option hdi) : H unit :=
  match info with
  | None => hret tt
  | Some x => touch (hdi_addr x) ;;; h_buffer_destroy_zero (hdi_system x) ;;; h_buffer_destroy_zero (Some (hdi_dev x)) ;;;
              h_buffer_destroy_zero (Some (hdi_msg x)) ;;; h_buffer_destroy_zero (Some (hdi_srv x)) ;;; free (hdi_addr x)
  end.

(* ---- stream_key.c, stream_iv.c, stream_ctx.c ---- *)
Record hst := { hst_addr : block; hst_cipher : hck; hst_evo : hbuf; hst_ppe : N; hst_user : option hbuf }.
Definition st_cells (x : hst) : list cell := struct_cell (hst_addr x) ++ ck_cells (hst_cipher x) ++ buf_cells (hst_evo x) ++ cells_opt buf_cells (hst_user x).
Definition st_value (x : hst) : stream_key :=
  {| sk_cipher := ck_value (hst_cipher x); sk_evo := b_bytes (hst_evo x); sk_ppe := hst_ppe x; sk_user := option_map b_bytes (hst_user x) |}.
(* stream_key.c:17-37 *)
Definition h_stream_key_create (k : option hck) (evo : option hbuf) (ppe : N) (user : option hbuf) : H (option hst) :=
  match k, evo with
  | Some a, Some b =>
      if (ppe <? PACKET_PER_EVO_MIN) || (PACKET_PER_EVO_MAX <? ppe) then hret None
      else x <-? alloc T_stream_key [] else hret tt ;;
           hret (Some {| hst_addr := x; hst_cipher := a; hst_evo := b; hst_ppe := ppe; hst_user := user |})
  | _, _ => hret None
  end.
(* stream_key.c:64-103 *)
Definition h_stream_key_copy (source : option hst) : H (option hst) :=
  match source with
  | None => hret None
  | Some s =>
      touch (hst_addr s) ;;;
      k <-? h_cipher_key_copy (Some (hst_cipher s)) else hret tt ;;
      e <-? h_buffer_copy (Some (hst_evo s)) else h_cipher_key_destroy (Some k) ;;
      u <-? h_buffer_copy (hst_user s) for hst_user s else (h_cipher_key_destroy (Some k) ;;; h_buffer_destroy_zero (Some e)) ;;
      c <-? h_stream_key_create (Some k) (Some e) (hst_ppe s) u
        else (h_cipher_key_destroy (Some k) ;;; h_buffer_destroy_zero (Some e) ;;; h_buffer_destroy u) ;;
      hret (Some c)
  end.
(* stream_key.c:150-162 *)
Definition h_stream_key_destroy (key : option hst) : H unit :=
  match key with
  | None => hret tt
  | Some x => touch (hst_addr x) ;;; h_cipher_key_destroy (Some (hst_cipher x)) ;;; h_buffer_destroy_zero (Some (hst_evo x)) ;;;
              h_buffer_destroy (hst_user x) ;;; free (hst_addr x)
  end.

Record hsi := { hsi_addr : block; hsi_cipher : cipher; hsi_seed : hbuf; hsi_count : N }.
Definition si_cells (x : hsi) : list cell := struct_cell (hsi_addr x) ++ buf_cells (hsi_seed x).
Definition si_value (x : hsi) : stream_iv := {| si_cipher := hsi_cipher x; si_seed := b_bytes (hsi_seed x); si_count := hsi_count x |}.
(* stream_iv.c:36-61; the seed is not wiped on failure *)
Definition h_stream_iv_copy (source : option hsi) : H (option hsi) :=
  match source with
  | None => hret None
  | Some s =>
      touch (hsi_addr s) ;;;
      b <-? h_buffer_copy (Some (hsi_seed s)) else hret tt ;;
      x <-? alloc T_stream_iv [] else h_buffer_destroy (Some b) ;;
      hret (Some {| hsi_addr := x; hsi_cipher := hsi_cipher s; hsi_seed := b; hsi_count := hsi_count s |})
  end.
(* stream_iv.c:63-72; the seed is not wiped *)
Definition h_stream_iv_destroy (iv : option hsi) : H unit :=
  match iv with
  | None => hret tt
  | Some x => touch (hsi_addr x) ;;; h_buffer_destroy (Some (hsi_seed x)) ;;; free (hsi_addr x)
  end.

(* A stream context with one owner (ref_count = 1); for shared ones see C60. *)
Record hsc := { hsc_addr : block; hsc_key : hst; hsc_last : N; hsc_dir : direction; hsc_iv : option hsi }.
Definition sc_cells (x : hsc) : list cell := struct_cell (hsc_addr x) ++ st_cells (hsc_key x) ++ cells_opt si_cells (hsc_iv x).
Definition sc_value (x : hsc) : stream_ctx :=
  {| sc_key := st_value (hsc_key x); sc_last := hsc_last x; sc_dir := hsc_dir x; sc_iv := option_map si_value (hsc_iv x); sc_refs := 1 |}.
(* stream_ctx.c:39-74; of a decoding stream a nonce generator that cannot be copied would be dropped *)
Definition h_stream_ctx_copy (source : option hsc) : H (option hsc) :=
  match source with
  | None => hret None
  | Some s =>
      touch (hsc_addr s) ;;;
      k <-? h_stream_key_copy (Some (hsc_key s)) else hret tt ;;
      i <-! h_stream_iv_copy (hsc_iv s) ;;
      match i, hsc_dir s with
      | None, ENCODE => h_stream_key_destroy (Some k) ;;; hret None
      | _, _ =>
          x <-? alloc T_stream_ctx [] else (h_stream_key_destroy (Some k) ;;; h_stream_iv_destroy i) ;;
          hret (Some {| hsc_addr := x; hsc_key := k; hsc_last := hsc_last s; hsc_dir := hsc_dir s; hsc_iv := i |})
      end
  end.
(* stream_ctx.c:228-242 with ref_count = 1 *)
Definition h_stream_ctx_destroy (ctx : option hsc) : H unit :=
  match ctx with
  | None => hret tt
  | Some x => touch (hsc_addr x) ;;; h_stream_key_destroy (Some (hsc_key x)) ;;; h_stream_iv_destroy (hsc_iv x) ;;; free (hsc_addr x)
  end.

(* ---- transport_root_key.c ---- *)
Record htr := { htr_addr : block; htr_cipher : cipher; htr_secret : hbuf; htr_send : N; htr_recv : N }.
Definition tr_cells (x : htr) : list cell := struct_cell (htr_addr x) ++ buf_cells (htr_secret x).
Definition tr_value (x : htr) : root_key := {| rk_cipher := htr_cipher x; rk_secret := b_bytes (htr_secret x); rk_send := htr_send x; rk_recv := htr_recv x |}.
(* transport_root_key.c:29-50 *)
Definition h_root_key_create (secret : option hbuf) (c : cipher) (send recv : N) : H (option htr) :=
  match secret with
  | None => hret None
  | Some s =>
      touch (b_addr s) ;;;
      if negb (blen (b_bytes s) =? key_len c) then hret None
      else x <-? alloc T_transport_root_key [] else hret tt ;;
           hret (Some {| htr_addr := x; htr_cipher := c; htr_secret := s; htr_send := send; htr_recv := recv |})
  end.
(* transport_root_key.c:52-74 *)
Definition h_root_key_copy (source : option htr) : H (option htr) :=
  match source with
  | None => hret None
  | Some s =>
      touch (htr_addr s) ;;;
      b <-? h_buffer_copy (Some (htr_secret s)) else hret tt ;;
      c <-? h_root_key_create (Some b) (htr_cipher s) (htr_send s) (htr_recv s) else h_buffer_destroy_zero (Some b) ;;
      hret (Some c)
  end.
(* transport_root_key.c:76-85 *)
Definition h_root_key_destroy (key : option htr) : H unit :=
  match key with
  | None => hret tt
  | Some x => touch (htr_addr x) ;;; h_buffer_destroy_zero (Some (htr_secret x)) ;;; free (htr_addr x)
  end.

(* ---- transport_packet.c ---- *)
Record htp := { htp_addr : block; htp_network : option hbuf; htp_body : hbuf; htp_mac : option hbuf; htp_meta : tmeta }.
Definition tp_cells (x : htp) : list cell :=
  struct_cell (htp_addr x) ++ cells_opt buf_cells (htp_network x) ++ buf_cells (htp_body x) ++ cells_opt buf_cells (htp_mac x).
Definition tp_value (x : htp) : tpacket :=
  {| tp_network := option_map b_bytes (htp_network x); tp_body := b_bytes (htp_body x); tp_mac := option_map b_bytes (htp_mac x); tp_meta := htp_meta x |}.
(* transport_packet.c:128-144 *)
Definition h_tpacket_create (m : tmeta) (body : option hbuf) : H (option htp) :=
  match body with
  | None => hret None
  | Some b => x <-? alloc T_transport_packet [] else hret tt ;;
              hret (Some {| htp_addr := x; htp_network := None; htp_body := b; htp_mac := None; htp_meta := m |})
  end.
(* transport_packet.c:146-177; network_buffer is not copied *)
Definition h_tpacket_copy (source : option htp) : H (option htp) :=
  match source with
  | None => hret None
  | Some s =>
      touch (htp_addr s) ;;;
      b <-? h_buffer_copy (Some (htp_body s)) else hret tt ;;
      m <-? h_buffer_copy (htp_mac s) for htp_mac s else h_buffer_destroy (Some b) ;;
      c <-? h_tpacket_create (htp_meta s) (Some b) else (h_buffer_destroy (Some b) ;;; h_buffer_destroy m) ;;
      hret (Some {| htp_addr := htp_addr c; htp_network := htp_network c; htp_body := htp_body c; htp_mac := m; htp_meta := htp_meta c |})
  end.
(* transport_packet.c:179-190 *)
Definition h_tpacket_destroy (packet : option htp) : H unit :=
  match packet with
  | None => hret tt
  | Some x => touch (htp_addr x) ;;; h_buffer_destroy (htp_network x) ;;; h_buffer_destroy (Some (htp_body x)) ;;; h_buffer_destroy (htp_mac x) ;;;
              free (htp_addr x)
  end.

(* ---- ecdh_cipher_ctx.c ---- *)
Record hex := { hex_addr : block; hex_local : hkey; hex_cipher : cipher }.
Definition ex_cells (x : hex) : list cell := struct_cell (hex_addr x) ++ key_cells (hex_local x).
Definition ex_value (x : hex) : ecdh_ctx := {| ex_local := key_value (hex_local x); ex_cipher := hex_cipher x |}.
(* ecdh_cipher_ctx.c:5-24 *)
Definition h_ecdh_ctx_create_key (k : option hkey) (c : cipher) : H (option hex) :=
  match k with
  | None => hret None
  | Some a => x <-? alloc T_ecdh_ctx [] else hret tt ;; hret (Some {| hex_addr := x; hex_local := a; hex_cipher := c |})
  end.
(* ecdh_cipher_ctx.c:44-64 *)
Definition h_ecdh_ctx_copy (source : option hex) : H (option hex) :=
  match source with
  | None => hret None
  | Some s =>
      touch (hex_addr s) ;;;
      k <-? h_ec_key_copy (Some (hex_local s)) else hret tt ;;
      c <-? h_ecdh_ctx_create_key (Some k) (hex_cipher s) else h_ec_key_destroy (Some k) ;;
      hret (Some c)
  end.
(* ecdh_cipher_ctx.c:66-75 *)
Definition h_ecdh_ctx_destroy (ctx : option hex) : H unit :=
  match ctx with
  | None => hret tt
  | Some x => touch (hex_addr x) ;;; h_ec_key_destroy (Some (hex_local x)) ;;; free (hex_addr x)
  end.

(* ---- transport_handshake.c ---- *)
Record hhr := { hhr_addr : block; hhr_local : hst; hhr_remote : hst }.
Definition hr_cells (x : hhr) : list cell := struct_cell (hhr_addr x) ++ st_cells (hhr_local x) ++ st_cells (hhr_remote x).
Definition hr_value (x : hhr) : handshake_res := {| hr_local := st_value (hhr_local x); hr_remote := st_value (hhr_remote x) |}.
(* transport_handshake.c:19-36 *)
Definition h_handshake_res_create (l r : option hst) : H (option hhr) :=
  match l, r with
  | Some a, Some b => x <-? alloc T_handshake_res [] else hret tt ;; hret (Some {| hhr_addr := x; hhr_local := a; hhr_remote := b |})
  | _, _ => hret None
  end.
(* transport_handshake.c:38-61 *)
Definition h_handshake_res_copy (source : option hhr) : H (option hhr) :=
  match source with
  | None => hret None
  | Some s =>
      touch (hhr_addr s) ;;;
      l <-! h_stream_key_copy (Some (hhr_local s)) ;;
      r <-! h_stream_key_copy (Some (hhr_remote s)) ;;
      match l, r with
      | Some _, Some _ =>
          c <-? h_handshake_res_create l r else (h_stream_key_destroy l ;;; h_stream_key_destroy r) ;;
          hret (Some c)
      | _, _ => h_stream_key_destroy l ;;; h_stream_key_destroy r ;;; hret None
      end
  end.
(* transport_handshake.c:63-74 *)
Definition h_handshake_res_destroy (res : option hhr) : H unit :=
  match res with
  | None => hret tt
  | Some x => touch (hhr_addr x) ;;; h_stream_key_destroy (Some (hhr_local x)) ;;; h_stream_key_destroy (Some (hhr_remote x)) ;;; free (hhr_addr x)
  end.

(* the packet list: transport_handshake.c:125-128, 153, 166, 221 *)
Definition h_packet_list_copy : option (harr hbuf) -> H (option (harr hbuf)) := h_array_copy h_buffer_copy h_buffer_destroy.
Definition h_packet_list_destroy : option (harr hbuf) -> H unit := h_array_destroy h_buffer_destroy.
Definition pl_cells : harr hbuf -> list cell := arr_cells buf_cells.
Definition pl_value : harr hbuf -> list (option bytes) := arr_value b_bytes.

Record hhs := { hhs_addr : block; hhs_status : hstatus; hhs_initiator : bool; hhs_local : hch; hhs_remote : option hch; hhs_evo : N;
                hhs_packets : harr hbuf; hhs_ephemeral : option hkey; hhs_root : option htr; hhs_pending : option htp }.
Definition hs_cells (x : hhs) : list cell :=
  struct_cell (hhs_addr x) ++ ch_cells (hhs_local x) ++ cells_opt ch_cells (hhs_remote x) ++ pl_cells (hhs_packets x) ++
  cells_opt key_cells (hhs_ephemeral x) ++ cells_opt tr_cells (hhs_root x) ++ cells_opt tp_cells (hhs_pending x).
(* the packet list has two entries (transport_handshake.c:125) *)
Definition hs_value (x : hhs) : handshake * list (option bytes) :=
  ({| hs_status := hhs_status x; hs_initiator := hhs_initiator x; hs_local := ch_value (hhs_local x);
      hs_remote := option_map ch_value (hhs_remote x); hs_evo := hhs_evo x;
      hs_packet0 := nth 0 (pl_value (hhs_packets x)) None; hs_packet1 := nth 1 (pl_value (hhs_packets x)) None;
      hs_ephemeral := option_map key_value (hhs_ephemeral x); hs_root := option_map tr_value (hhs_root x);
      hs_pending := option_map tp_value (hhs_pending x) |}, pl_value (hhs_packets x)).
(* transport_handshake.c:86-116; the callback is set *)
Definition h_handshake_create_list (l r : option hch) (p : option (harr hbuf)) (evo : N) : H (option hhs) :=
  match l, p with
  | Some a, Some b =>
      if evo =? 0 then hret None
      else x <-? alloc T_handshake [] else hret tt ;;
           hret (Some {| hhs_addr := x; hhs_status := H_UNKNOWN; hhs_initiator := false; hhs_local := a; hhs_remote := r; hhs_evo := evo;
                         hhs_packets := b; hhs_ephemeral := None; hhs_root := None; hhs_pending := None |})
  | _, _ => hret None
  end.
(* transport_handshake.c:213-228 *)
Definition h_handshake_destroy (handshake : option hhs) : H unit :=
  match handshake with
  | None => hret tt
  | Some x => touch (hhs_addr x) ;;; h_chain_destroy (Some (hhs_local x)) ;;; h_chain_destroy (hhs_remote x) ;;; h_packet_list_destroy (Some (hhs_packets x)) ;;;
              h_ec_key_destroy (hhs_ephemeral x) ;;; h_root_key_destroy (hhs_root x) ;;; h_tpacket_destroy (hhs_pending x) ;;; free (hhs_addr x)
  end.
(* transport_handshake.c:145-211 *)
Definition h_handshake_copy (source : option hhs) : H (option hhs) :=
  match source with
  | None => hret None
  | Some s =>
      touch (hhs_addr s) ;;;
      l <-! h_chain_copy (Some (hhs_local s)) ;;
      r <-! h_chain_copy (hhs_remote s) ;;
      p <-! h_packet_list_copy (Some (hhs_packets s)) ;;
      let drop := h_chain_destroy l ;;; h_chain_destroy r ;;; h_packet_list_destroy p in
      match l, p, r, hhs_remote s with
      | None, _, _, _ | _, None, _, _ | _, _, None, Some _ => drop ;;; hret None
      | _, _, _, _ =>
          c <-? h_handshake_create_list l r p (hhs_evo s) else drop ;;
          k <-? h_root_key_copy (hhs_root s) for hhs_root s else h_handshake_destroy (Some c) ;;
          t <-? h_tpacket_copy (hhs_pending s) for hhs_pending s else (h_root_key_destroy k ;;; h_handshake_destroy (Some c)) ;;
          e <-? h_ec_key_copy (hhs_ephemeral s) for hhs_ephemeral s
            else (h_root_key_destroy k ;;; h_handshake_destroy (Some c) ;;; h_tpacket_destroy t) ;;
          hret (Some {| hhs_addr := hhs_addr c; hhs_status := hhs_status s; hhs_initiator := hhs_initiator s; hhs_local := hhs_local c;
                        hhs_remote := hhs_remote c; hhs_evo := hhs_evo c; hhs_packets := hhs_packets c; hhs_ephemeral := e; hhs_root := k;
                        hhs_pending := t |})
      end
  end.

(* ---- transport_ctx.c ---- *)
Record htc := { htc_addr : block; htc_local : hch; htc_remote : option hch; htc_tx : option hsc; htc_rx : option hsc; htc_handshake : option hhs;
                htc_status : tstatus; htc_evo : N; htc_err : terror }.
Definition tc_cells (x : htc) : list cell :=
  struct_cell (htc_addr x) ++ ch_cells (htc_local x) ++ cells_opt ch_cells (htc_remote x) ++ cells_opt sc_cells (htc_tx x) ++
  cells_opt sc_cells (htc_rx x) ++ cells_opt hs_cells (htc_handshake x).
(* the value, with the packet list of the pending handshake *)
Definition tc_value (x : htc) : transport * list (option bytes) :=
  ({| tc_local := ch_value (htc_local x); tc_remote := option_map ch_value (htc_remote x); tc_tx := option_map sc_value (htc_tx x);
     tc_rx := option_map sc_value (htc_rx x); tc_handshake := option_map (fun y => fst (hs_value y)) (htc_handshake x);
     tc_status := htc_status x; tc_evo := htc_evo x; tc_err := htc_err x |},
   match htc_handshake x with Some y => snd (hs_value y) | None => [] end).
(* transport_ctx.c:65-122; refuses a context that does not know its peer's identity *)
Definition h_transport_copy (source : option htc) : H (option htc) :=
  match source with
  | None => hret None
  | Some s =>
      touch (htc_addr s) ;;;
      l <-? h_chain_copy (Some (htc_local s)) else hret tt ;;
      r <-? h_chain_copy (htc_remote s) else h_chain_destroy (Some l) ;;
      t <-? h_stream_ctx_copy (htc_tx s) for htc_tx s else (h_chain_destroy (Some l) ;;; h_chain_destroy (Some r)) ;;
      u <-? h_stream_ctx_copy (htc_rx s) for htc_rx s else (h_chain_destroy (Some l) ;;; h_chain_destroy (Some r) ;;; h_stream_ctx_destroy t) ;;
      x <-? alloc T_transport_ctx []
        else (h_chain_destroy (Some l) ;;; h_chain_destroy (Some r) ;;; h_stream_ctx_destroy t ;;; h_stream_ctx_destroy u) ;;
      hret (Some {| htc_addr := x; htc_local := l; htc_remote := Some r; htc_tx := t; htc_rx := u; htc_handshake := None;
                    htc_status := htc_status s; htc_evo := htc_evo s; htc_err := E_NONE |})
  end.
(* transport_ctx.c:124-138 *)
Definition h_transport_destroy (ctx : option htc) : H unit :=
  match ctx with
  | None => hret tt
  | Some x => touch (htc_addr x) ;;; h_chain_destroy (Some (htc_local x)) ;;; h_chain_destroy (htc_remote x) ;;; h_stream_ctx_destroy (htc_tx x) ;;;
              h_stream_ctx_destroy (htc_rx x) ;;; h_handshake_destroy (htc_handshake x) ;;; free (htc_addr x)
  end.

(* ---- wickr_ctx.c ---- *)
Record hcx := { hcx_addr : block; hcx_dev : hdi; hcx_chain : hch; hcx_storage : hsk; hcx_header : hck; hcx_version : N }.
Definition cx_cells (x : hcx) : list cell :=
  struct_cell (hcx_addr x) ++ di_cells (hcx_dev x) ++ ch_cells (hcx_chain x) ++ sk_cells (hcx_storage x) ++ ck_cells (hcx_header x).
Definition cx_value (x : hcx) : ctx :=
  {| cx_dev := di_value (hcx_dev x); cx_chain := ch_value (hcx_chain x); cx_storage := sk_value (hcx_storage x);
     cx_header_key := ck_value (hcx_header x); cx_version := hcx_version x |}.
(* wickr_ctx.c:458-471 *)
Definition h_ctx_destroy (c : option hcx) : H unit :=
  match c with
  | None => hret tt
  | Some x => touch (hcx_addr x) ;;; h_dev_info_destroy (Some (hcx_dev x)) ;;; h_chain_destroy (Some (hcx_chain x)) ;;;
              h_storage_keys_destroy (Some (hcx_storage x)) ;;; h_cipher_key_destroy (Some (hcx_header x)) ;;; free (hcx_addr x)
  end.
Record hgr := { hgr_addr : block; hgr_ctx : hcx; hgr_recovery : hck; hgr_root : hrk }.
Definition gr_cells (x : hgr) : list cell := struct_cell (hgr_addr x) ++ cx_cells (hgr_ctx x) ++ ck_cells (hgr_recovery x) ++ rk_cells (hgr_root x).
Definition gr_value (x : hgr) : gen_result :=
  {| gr_ctx := cx_value (hgr_ctx x); gr_recovery_key := ck_value (hgr_recovery x); gr_root_keys := rk_value (hgr_root x) |}.
(* wickr_ctx.c:7-24 *)
Definition h_gen_result_create (c : option hcx) (k : option hck) (r : option hrk) : H (option hgr) :=
  match c, k, r with
  | Some a, Some b, Some d => x <-? alloc T_ctx_gen_result [] else hret tt ;; hret (Some {| hgr_addr := x; hgr_ctx := a; hgr_recovery := b; hgr_root := d |})
  | _, _, _ => hret None
  end.
(* wickr_ctx.c:369-380 *)
Definition h_gen_result_destroy (result : option hgr) : H unit :=
  match result with
  | None => hret tt
  | Some x => touch (hgr_addr x) ;;; h_ctx_destroy (Some (hgr_ctx x)) ;;; h_cipher_key_destroy (Some (hgr_recovery x)) ;;;
              h_root_keys_destroy (Some (hgr_root x)) ;;; free (hgr_addr x)
  end.
Section ctx.
  Context (P : prims).
  (* openssl_suite.c:623-665: the bytes are those of Model/Engine.v, in a new buffer, which is
     written to without a test.  OpenSSL's digest context, released on every path, is left out. *)
  Definition h_digest (b salt : hbuf) (d : digest) : H (option hbuf) :=
    touch (b_addr b) ;;; touch (b_addr salt) ;;;
    match sha2 P (Some (b_bytes b)) (Some (b_bytes salt)) d with
    | None => hret None
    | Some v => y <-# h_buffer_create v ;; hret (Some y)
    end.
  (* wickr_ctx.c:26-55 *)
  Definition h_gen_header_key (c : cipher) (ch : hch) : H (option hck) :=
    touch (hch_addr ch) ;;;
    touch (hid_addr (hch_root ch)) ;;; touch (hid_addr (hch_node ch)) ;;;
    d <-? h_digest (hid_identifier (hch_root ch)) (hid_identifier (hch_node ch)) (digest_matching_cipher c) else hret tt ;;
    k <-? h_cipher_key_create c (Some d) else h_buffer_destroy (Some d) ;;
    hret (Some k).
  (* wickr_ctx.c:385-416; the header key is not released when the last step fails *)
  Definition h_ctx_create (i : option hdi) (ch : option hch) (s : option hsk) : H (option hcx) :=
    match i, ch, s with
    | Some a, Some b, Some c =>
        k <-? h_gen_header_key default_cipher b else hret tt ;;
        x <-? alloc T_ctx [] else hret tt ;;
        hret (Some {| hcx_addr := x; hcx_dev := a; hcx_chain := b; hcx_storage := c; hcx_header := k; hcx_version := DEFAULT_PKT_ENC_VERSION |})
    | _, _, _ => hret None
    end.
  (* wickr_ctx.c:418-456; the new context is written to without a test (the clean up before it
     changes nothing about that) *)
  Definition h_ctx_copy (source : option hcx) : H (option hcx) :=
    match source with
    | None => hret None
    | Some s =>
        touch (hcx_addr s) ;;;
        i <-? h_dev_info_copy (Some (hcx_dev s)) else hret tt ;;
        c <-? h_chain_copy (Some (hcx_chain s)) else h_dev_info_destroy (Some i) ;;
        k <-? h_storage_keys_copy (Some (hcx_storage s)) else (h_dev_info_destroy (Some i) ;;; h_chain_destroy (Some c)) ;;
        y <-# h_ctx_create (Some i) (Some c) (Some k) ;;
        hret (Some {| hcx_addr := hcx_addr y; hcx_dev := hcx_dev y; hcx_chain := hcx_chain y; hcx_storage := hcx_storage y;
                      hcx_header := hcx_header y; hcx_version := hcx_version s |})
    end.
  (* wickr_ctx.c:332-367 *)
  Definition h_gen_result_copy (source : option hgr) : H (option hgr) :=
    match source with
    | None => hret None
    | Some s =>
        touch (hgr_addr s) ;;;
        c <-? h_ctx_copy (Some (hgr_ctx s)) else hret tt ;;
        k <-? h_cipher_key_copy (Some (hgr_recovery s)) else h_ctx_destroy (Some c) ;;
        r <-? h_root_keys_copy (Some (hgr_root s)) else (h_ctx_destroy (Some c) ;;; h_cipher_key_destroy (Some k)) ;;
        n <-? h_gen_result_create (Some c) (Some k) (Some r)
          else (h_ctx_destroy (Some c) ;;; h_cipher_key_destroy (Some k) ;;; h_root_keys_destroy (Some r)) ;;
        hret (Some n)
    end.
End ctx.
(* wickr_ctx.c:738-749 *)
Record hcp := { hcp_addr : block; hcp_packet : hpt; hcp_sender : hch; hcp_parse : hpa }.
Definition cp_cells (x : hcp) : list cell := struct_cell (hcp_addr x) ++ pt_cells (hcp_packet x) ++ ch_cells (hcp_sender x) ++ pa_cells (hcp_parse x).
Definition cp_value (x : hcp) : ctx_packet :=
  {| cp_packet := pt_value (hcp_packet x); cp_sender := ch_value (hcp_sender x); cp_parse := pa_value (hcp_parse x) |}.
Definition h_ctx_packet_destroy (packet : option hcp) : H unit :=
  match packet with
  | None => hret tt
  | Some x => touch (hcp_addr x) ;;; h_packet_destroy (Some (hcp_packet x)) ;;; h_chain_destroy (Some (hcp_sender x)) ;;;
              h_parse_result_destroy (Some (hcp_parse x)) ;;; free (hcp_addr x)
  end.
