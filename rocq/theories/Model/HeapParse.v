(* The functions that make an object from bytes, on the heap of Model/Heap.v.  They follow the
   functional model (Model/*.v) and add what is allocated, released and left behind.
   A function whose name ends in _bytes is given the bytes a buffer on the stack points to: a
   part of the caller's buffer or of a protobuf message, which stays in place during the call.
   An unpacked protobuf message has a block for itself, for each message in it and for each of
   its fields of bytes or text.  Simplification: bytes that are not such a message are refused
   without allocating. *)
From Verif.Base Require Import Bytes.
From Verif.Model Require Import Buffer Cipher Ecdsa Kdf Prims Engine Identity Node Stream TransportPacket EcdhCipher Handshake Transport Keys Payload Exchange Packet Ctx Heap HeapObjects HeapMessages.
Local Open Scope N_scope.
Local Open Scope h_scope.

(* a step that allocates nothing; NULL is returned at once *)
Definition hstep {A B} (r : res A) (k : A -> H (option B)) : H (option B) :=
  match r with
  | Val a => k a
  | Null => hret None
  | UB => hub
  end.
Notation "x <-: e ;; k" := (hstep e (fun x => k)) (at level 61, e at next level, right associativity) : h_scope.
(* the caller's buffer is read *)
Definition with_input {T} (parse : bytes -> H (option T)) (buffer : option hbuf) : H (option T) :=
  match buffer with
  | None => hret None
  | Some b => touch (b_addr b) ;;; c <-! load (b_data b) ;; parse c
  end.
(* protobuf-c: ..._unpack, which releases what it has when an allocation fails, and
   ..._free_unpacked; neither clears anything *)
Fixpoint h_alloc_all (l : list bytes) : H (option (list block)) :=
  match l with
  | [] => hret (Some [])
  | c :: r => x <-? alloc T_proto c else hret tt ;; xs <-? h_alloc_all r else free x ;; hret (Some (x :: xs))
  end.
Fixpoint h_free_all (l : list block) : H unit :=
  match l with
  | [] => hret tt
  | x :: r => free x ;;; h_free_all r
  end.
Definition h_unpack {M} (unpack : bytes -> option M) (fields : M -> list bytes) (b : bytes) : H (option (list block * M)) :=
  match unpack b with
  | None => hret None
  | Some m => bs <-? h_alloc_all (fields m) else hret tt ;; hret (Some (bs, m))
  end.
Definition h_free_unpacked {M} (m : list block * M) : H unit := h_free_all (fst m).
(* unpack, use, release: identity.c:145-161 and others *)
Definition from_proto {M T} (unpack : bytes -> option M) (fields : M -> list bytes) (make : M -> H (option T)) (b : bytes) : H (option T) :=
  m <-? h_unpack unpack fields b else hret tt ;;
  o <-! make (snd m) ;;
  h_free_unpacked m ;;;
  hret o.
(* the blocks of each message, from src/protobuf/*.proto: [] for the structure itself, one for
   each field of bytes that is not empty *)
Definition olist (o : option bytes) : list bytes := match o with Some (x :: r) => [x :: r] | _ => [] end.
Definition omsg {M} (fields : M -> list bytes) (o : option M) : list bytes := match o with Some m => fields m | None => [] end.
(* identity.proto:5-20 *)
Definition identity_fields (m : pb_identity) : list bytes := [] :: olist (pi_identifier m) ++ olist (pi_sig_key m) ++ olist (pi_signature m).
Definition chain_fields (m : pb_chain) : list bytes := [] :: omsg identity_fields (pc_root m) ++ omsg identity_fields (pc_node m).
(* ephemeral_keypair.proto:4-8, node.proto:8-13 *)
Definition keypair_fields (m : pb_keypair) : list bytes := [] :: olist (pk_ec_key m) ++ olist (pk_signature m).
Definition node_fields (m : pb_node) : list bytes := [] :: olist (pn_devid m) ++ omsg chain_fields (pn_chain m) ++ omsg keypair_fields (pn_keypair m).
(* message.proto:9-23, key_exchange.proto:4-13 *)
Definition payload_fields (m : pb_payload) : list bytes := [] :: [] :: [] :: olist (pm_tag (pp_meta m)) ++ olist (Some (pp_body m)).
Definition exchange_fields (m : pb_exchange) : list bytes := [] :: olist (Some (px_id m)) ++ olist (Some (px_data m)).
Definition exchange_set_fields (m : pb_exchange_set) : list bytes :=
  [] :: [] :: olist (Some (py_sender m)) ++ flat_map exchange_fields (py_exchanges m).
(* storage.proto:6-17, stream.proto:40-45 *)
Definition root_keys_fields (m : pb_root_keys) : list bytes := [] :: olist (pr_node m) ++ olist (pr_remote m) ++ olist (pr_signature m).
Definition storage_keys_fields (m : pb_storage_keys) : list bytes := [] :: olist (ps_local m) ++ olist (ps_remote m).
Definition stream_key_fields (m : pb_stream_key) : list bytes := [] :: olist (pst_cipher_key m) ++ olist (pst_evo m) ++ olist (pst_user m).

(* buffer.c:86-97 *)
Definition h_buffer_copy_section (b : bytes) (start len : N) : H (option hbuf) :=
  if section_ok b start len then h_buffer_create (slice b (N.to_nat start) (N.to_nat len)) else hret None.

(* cipher.c:111-164 *)
Definition h_cipher_result_from_bytes (b : bytes) : H (option hcr) :=
  if blen b =? 0 then hret None
  else
    b0 <-: rd b 0 ;;
    mode <-: lift (cipher_find (b2n b0)) ;;
    let required := 1 + iv_len mode + auth_tag_len mode in
    if blen b <? required then hret None
    else
      iv <-? h_buffer_copy_section b 1 (iv_len mode) else hret tt ;;
      tag <-? (if is_authenticated mode then h_buffer_copy_section b (1 + iv_len mode) (auth_tag_len mode) else hret None)
        for (if is_authenticated mode then Some tt else None) else h_buffer_destroy (Some iv) ;;
      let pos := if is_authenticated mode then 1 + iv_len mode + auth_tag_len mode else 1 + iv_len mode in
      text <-? (if required <? blen b then h_buffer_copy_section b pos (blen b - pos) else hret None)
        for (if required <? blen b then Some tt else None) else (h_buffer_destroy (Some iv) ;;; h_buffer_destroy tag) ;;
      h_cipher_result_create mode (Some iv) text tag.
(* cipher.c:226-245 *)
Definition h_cipher_key_from_bytes (b : bytes) : H (option hck) :=
  if blen b <=? 1 then hret None
  else
    b0 <-: rd b 0 ;;
    c <-: lift (cipher_find (b2n b0)) ;;
    if wsub64 (blen b) 1 <? key_len c then hret None
    else
      k <-? h_buffer_copy_section b 1 (key_len c) else hret tt ;;
      h_cipher_key_create c (Some k).
(* ecdsa.c:22-48 *)
Definition h_ecdsa_result_from_bytes (b : bytes) : H (option hsig) :=
  if blen b <? ECDSA_HEADER_SIZE then hret None
  else
    b0 <-: rd b 0 ;;
    let c := curve_find (N.shiftr (N.land (b2n b0) 240) 4) in
    let d := digest_find (N.land (b2n b0) 15) in
    match c, d with
    | Some c', Some d' =>
        b1 <-: rd b 1 ;;
        let padding_size := b2n b1 in
        if blen b <=? ECDSA_HEADER_SIZE + padding_size then hret None
        else
          let start_loc := ECDSA_HEADER_SIZE + padding_size in
          s <-? h_buffer_copy_section b start_loc (blen b - start_loc) else hret tt ;;
          h_ecdsa_result_create c' d' (Some s)
    | _, _ => hret None
    end.
(* kdf.c:95-120; the salt is not released when the last step fails *)
Definition h_kdf_meta_from_bytes (b : bytes) : H (option hkm) :=
  meta_size <-: kdf_meta_size_with_buffer (Some b) ;;
  if meta_size =? 0 then hret None
  else if blen b <? meta_size then hret None
  else
    b0 <-: rd b 0 ;;
    a <-: lift (find_kdf_algo (b2n b0)) ;;
    salt <-? h_buffer_copy_section b 1 (ka_salt_size a) else hret tt ;;
    h_kdf_meta_create a (Some salt) None.

Section engine.
  Context (P : prims).
  (* What OpenSSL holds of a key: the blocks of its EC_KEY and EVP_PKEY (OpenSSL clears private
     keys itself when it releases them, so their bytes are not tracked), the public octets and
     the DER form of a private key *)
  Record evp := { evp_ec : block; evp_pkey : block; evp_pub : bytes; evp_der : option bytes }.
  (* openssl_suite.c:94-127 from 173-176: no EVP_PKEY, then the EC_KEY is not released *)
  Definition h_evp_private (b : bytes) : H (option evp) :=
    match p_d2i P b with
    | None => hret None
    | Some (pub, der) =>
        e <-? alloc T_openssl [] else hret tt ;;
        v <-? alloc T_openssl [] else hret tt ;;
        hret (Some {| evp_ec := e; evp_pkey := v; evp_pub := pub; evp_der := Some der |})
    end.
  (* openssl_suite.c:178-211 with 94-127 *)
  Definition h_evp_public (b : bytes) : H (option evp) :=
    match b with
    | c :: (_ :: _) as rest =>
        match curve_find (b2n c) with
        | None => hret None
        | Some P521 =>
            e <-? alloc T_openssl [] else hret tt ;;
            match p_o2i P rest with
            | None => free e ;;; hret None
            | Some pub => v <-? alloc T_openssl [] else free e ;;
                          hret (Some {| evp_ec := e; evp_pkey := v; evp_pub := pub; evp_der := None |})
            end
        end
    | _ => hret None
    end.
  (* EVP_PKEY_free *)
  Definition h_evp_free (k : evp) : H unit := free (evp_pkey k) ;;; free (evp_ec k).
  (* openssl_suite.c:807-893 *)
  Definition h_ec_key_import (is_private : bool) (b : bytes) : H (option hkey) :=
    k <-? (if is_private then h_evp_private b else h_evp_public b) else hret tt ;;
    if p_inf P (evp_pub k) then h_evp_free k ;;; hret None
    else
      p <-? h_buffer_create (n2b (curve_id P521) :: evp_pub k) else h_evp_free k ;;
      match evp_der k with
      | None =>
          h_evp_free k ;;;
          x <-? h_ec_key_create P521 (Some p) None else h_buffer_destroy_zero (Some p) ;;
          hret (Some x)
      | Some d =>
          q <-? h_buffer_create d else (h_evp_free k ;;; h_buffer_destroy (Some p)) ;;
          h_evp_free k ;;;
          x <-? h_ec_key_create P521 (Some p) (Some q) else (h_buffer_destroy_zero (Some p) ;;; h_buffer_destroy_zero (Some q)) ;;
          hret (Some x)
      end.

  (* identity_priv.c:104-152 *)
  Definition h_identity_from_message (m : option pb_identity) : H (option hid) :=
    match m with
    | Some x =>
        match pi_identifier x, pi_sig_key x, pi_type x with
        | Some i, Some k, Some t =>
            id_buffer <-? h_buffer_create i else hret tt ;;
            sig_key <-? h_ec_key_import (match pi_is_private x with Some b => b | None => false end) k else h_buffer_destroy (Some id_buffer) ;;
            signature <-? (match pi_signature x with Some s => h_ecdsa_result_from_bytes s | None => hret None end)
              for pi_signature x else (h_buffer_destroy (Some id_buffer) ;;; h_ec_key_destroy (Some sig_key)) ;;
            n <-? h_identity_create (if t =? 1 then ID_NODE else ID_ROOT) (Some id_buffer) (Some sig_key) signature
              else (h_buffer_destroy (Some id_buffer) ;;; h_ec_key_destroy (Some sig_key) ;;; h_ecdsa_result_destroy signature) ;;
            hret (Some n)
        | _, _, _ => hret None
        end
    | None => hret None
    end.
  (* identity_priv.c:214-243 *)
  Definition h_chain_from_message (m : option pb_chain) : H (option hch) :=
    match m with
    | None => hret None
    | Some x =>
        root <-? h_identity_from_message (pc_root x) else hret tt ;;
        node <-? h_identity_from_message (pc_node x) else h_identity_destroy (Some root) ;;
        c <-? h_chain_create (Some root) (Some node) else (h_identity_destroy (Some root) ;;; h_identity_destroy (Some node)) ;;
        hret (Some c)
    end.
  (* identity.c:145-161 *)
  Definition h_identity_from_bytes : bytes -> H (option hid) := from_proto pb_identity_unpack identity_fields (fun m => h_identity_from_message (Some m)).
  (* identity.c:335-351 *)
  Definition h_chain_from_bytes : bytes -> H (option hch) := from_proto pb_chain_unpack chain_fields (fun m => h_chain_from_message (Some m)).
  (* ephemeral_keypair_priv.c:66-102 *)
  Definition h_keypair_from_message (m : option pb_keypair) : H (option hkp) :=
    match m with
    | None => hret None
    | Some x =>
        match pk_ec_key x, pk_identifier x with
        | Some k, Some i =>
            key <-? h_ec_key_import false k else hret tt ;;
            signature <-? (match pk_signature x with Some s => h_ecdsa_result_from_bytes s | None => hret None end)
              for pk_signature x else h_ec_key_destroy (Some key) ;;
            n <-? h_keypair_create i (Some key) signature else (h_ec_key_destroy (Some key) ;;; h_ecdsa_result_destroy signature) ;;
            hret (Some n)
        | _, _ => hret None
        end
    end.
  (* ephemeral_keypair.c:132-148 *)
  Definition h_keypair_from_bytes : bytes -> H (option hkp) := from_proto pb_keypair_unpack keypair_fields (fun m => h_keypair_from_message (Some m)).
  (* node_priv.c:58-102 *)
  Definition h_node_from_message (m : pb_node) : H (option hnd) :=
    match pn_devid m with
    | None => hret None
    | Some d =>
        dev_id <-? h_buffer_create d else hret tt ;;
        c <-? h_chain_from_message (pn_chain m) else h_buffer_destroy (Some dev_id) ;;
        kp <-? (match pn_keypair m with Some k => h_keypair_from_message (Some k) | None => hret None end)
          for pn_keypair m else (h_buffer_destroy (Some dev_id) ;;; h_chain_destroy (Some c)) ;;
        n <-? h_node_create (Some dev_id) (Some c) kp
          else (h_buffer_destroy (Some dev_id) ;;; h_chain_destroy (Some c) ;;; h_keypair_destroy kp) ;;
        hret (Some n)
    end.
  (* node.c:202-218 *)
  Definition h_node_from_bytes : bytes -> H (option hnd) := from_proto pb_node_unpack node_fields h_node_from_message.

  (* root_keys.c:68-124; the test of line 99 is of a key known not to be NULL *)
  Definition h_root_keys_from_message (m : pb_root_keys) : H (option hrk) :=
    match pr_node m, pr_remote m with
    | Some n, Some r =>
        if CURRENT_ROOT_KEY_VERSION <? pr_version m then hret None
        else
          node_storage <-? h_cipher_key_from_bytes n else hret tt ;;
          remote_storage <-! h_cipher_key_from_bytes r ;;
          sig <-? h_ec_key_import true (obytes (pr_signature m))
            else (h_cipher_key_destroy remote_storage ;;; h_cipher_key_destroy (Some node_storage)) ;;
          k <-? h_root_keys_create (Some sig) (Some node_storage) remote_storage
            else (h_cipher_key_destroy remote_storage ;;; h_cipher_key_destroy (Some node_storage) ;;; h_ec_key_destroy (Some sig)) ;;
          hret (Some k)
    | _, _ => hret None
    end.
  Definition h_root_keys_from_bytes : bytes -> H (option hrk) := from_proto pb_root_keys_unpack root_keys_fields h_root_keys_from_message.
End engine.

(* payload.c:109-163; the channel type is passed as a uint16_t; the message is released before the body is tested *)
Definition h_payload_from_message (m : pb_payload) : H (option hpy) :=
  let pm := pp_meta m in
  tag <-? h_buffer_create (obytes (pm_tag pm)) else hret tt ;;
  meta <-? h_packet_meta_create (pe_ttl (pm_eph pm)) (match pe_bor (pm_eph pm) with Some x => x | None => 0 end) (Some tag)
             ((match pm_type pm with Some t => t | None => 0 end) mod 65536) else h_buffer_destroy (Some tag) ;;
  body <-? h_buffer_create (pp_body m) else h_packet_meta_destroy (Some meta) ;;
  n <-? h_payload_create (Some meta) (Some body) else (h_packet_meta_destroy (Some meta) ;;; h_buffer_destroy_zero (Some body)) ;;
  hret (Some n).
Definition h_payload_from_bytes : bytes -> H (option hpy) := from_proto pb_payload_unpack payload_fields h_payload_from_message.

(* key_exchange.c:113-144 *)
Definition h_key_exchange_from_message (m : pb_exchange) : H (option hkx) :=
  if (blen (px_data m) =? 0) || (blen (px_id m) =? 0) then hret None
  else
    exchange_bytes <-! h_buffer_create (px_data m) ;;
    text <-! with_input h_cipher_result_from_bytes exchange_bytes ;;
    h_buffer_destroy exchange_bytes ;;;
    match text with
    | None => hret None
    | Some t =>
        id <-? h_buffer_create (px_id m) else h_cipher_result_destroy (Some t) ;;
        n <-? h_key_exchange_create (Some id) (px_key_id m) (Some t) else (h_buffer_destroy (Some id) ;;; h_cipher_result_destroy (Some t)) ;;
        hret (Some n)
    end.
(* array.c:77-101 with copy = false: the item is handed over, and what was there is only forgotten *)
Definition h_array_put {T} (a : harr T) (i : nat) (item : T) : H (bool * harr T) :=
  touch (harr_addr a) ;;;
  match nth_error (harr_items a) i with
  | None => hret (false, a)
  | Some _ =>
      hret (true, {| harr_addr := harr_addr a; harr_store := harr_store a;
                     harr_items := firstn i (harr_items a) ++ Some item :: skipn (S i) (harr_items a) |})
  end.
(* key_exchange.c:294-311, loop *)
Fixpoint h_exchange_items (l : list pb_exchange) (i : nat) (a : harr hkx) : H (option (harr hkx)) :=
  match l with
  | [] => hret (Some a)
  | m :: r =>
      x <-? h_key_exchange_from_message m else h_exchange_array_destroy (Some a) ;;
      s <-! h_array_put a i x ;;
      if fst s then h_exchange_items r (S i) (snd s)
      else h_key_exchange_destroy (Some x) ;;; h_exchange_array_destroy (Some (snd s)) ;;; hret None
  end.
(* key_exchange.c:278-328 *)
Definition h_exchange_set_from_message (P : prims) (m : pb_exchange_set) : H (option hxs) :=
  let n := N.of_nat (length (py_exchanges m)) in
  if (n =? 0) || (INT32_MAX <? n) || (blen (py_sender m) =? 0) then hret None
  else
    a <-? h_array_new (length (py_exchanges m)) else hret tt ;;
    items <-? h_exchange_items (py_exchanges m) 0 a else hret tt ;;
    pubkey <-? h_ec_key_import P false (py_sender m) else h_exchange_array_destroy (Some items) ;;
    s <-? h_exchange_set_create (Some pubkey) (Some items) else (h_exchange_array_destroy (Some items) ;;; h_ec_key_destroy (Some pubkey)) ;;
    hret (Some s).
(* key_exchange.c:405-424 *)
Definition h_exchange_set_from_bytes (P : prims) : bytes -> H (option hxs) := from_proto pb_exchange_set_unpack exchange_set_fields (h_exchange_set_from_message P).

(* protocol.c:312-380; a signature of another kind than the packet says is not released *)
Definition h_packet_from_bytes (b : bytes) : H (option hpt) :=
  if blen b <=? PACKET_META_SIZE then hret None
  else
    b0 <-: rd b 0 ;;
    let version := b2n b0 in
    if (CURRENT_PACKET_VERSION <? version) || (version <? OLDEST_PACKET_VERSION) then hret None
    else
      b1 <-: rd b 1 ;;
      let sig_type := if version =? 2 then N.land (b2n b1) 15 else b2n b1 in
      curve <-: lift (curve_find sig_type) ;;
      if blen b <=? PACKET_META_SIZE + signature_size curve then hret None
      else
        sig_buffer <-: memread b (blen b - signature_size curve) (signature_size curve) ;;
        signature <-? h_ecdsa_result_from_bytes sig_buffer else hret tt ;;
        if negb (digest_id (hsig_digest signature) =? digest_id (digest_matching_curve curve)) ||
           negb (curve_id (hsig_curve signature) =? curve_id curve) then hret None
        else
          content <-? h_buffer_copy_section b PACKET_META_SIZE (blen b - signature_size curve - PACKET_META_SIZE)
            else h_ecdsa_result_destroy (Some signature) ;;
          n <-? h_packet_create version (Some content) (Some signature)
            else (h_ecdsa_result_destroy (Some signature) ;;; h_buffer_destroy (Some content)) ;;
          hret (Some n).

(* storage_priv.c:45-76 *)
Definition h_storage_keys_from_message (m : pb_storage_keys) : H (option hsk) :=
  match ps_local m, ps_remote m with
  | Some l, Some r =>
      if negb (ps_version m =? CURRENT_STORAGE_KEY_VERSION) then hret None
      else
        local_storage <-? h_cipher_key_from_bytes l else hret tt ;;
        remote_storage <-? h_cipher_key_from_bytes r else h_cipher_key_destroy (Some local_storage) ;;
        k <-? h_storage_keys_create (Some local_storage) (Some remote_storage)
          else (h_cipher_key_destroy (Some local_storage) ;;; h_cipher_key_destroy (Some remote_storage)) ;;
        hret (Some k)
  | _, _ => hret None
  end.
(* storage.c:75-88 *)
Definition h_storage_keys_from_bytes : bytes -> H (option hsk) := from_proto pb_storage_keys_unpack storage_keys_fields h_storage_keys_from_message.

(* stream_key_priv.c:60-107; the user data is not released when the last step fails *)
Definition h_stream_key_from_message (m : pb_stream_key) : H (option hst) :=
  match pst_cipher_key m, pst_evo m, pst_ppe m with
  | Some kb, Some e, Some ppe =>
      b <-? h_buffer_create kb else hret tt ;;
      o <-! with_input h_cipher_key_from_bytes (Some b) ;;
      h_buffer_destroy_zero (Some b) ;;;
      match o with
      | None => hret None
      | Some k =>
          evo <-? h_buffer_create e else h_cipher_key_destroy (Some k) ;;
          user <-? (match pst_user m with Some u => h_buffer_create u | None => hret None end)
            for pst_user m else (h_cipher_key_destroy (Some k) ;;; h_buffer_destroy_zero (Some evo)) ;;
          n <-? h_stream_key_create (Some k) (Some evo) ppe user else (h_cipher_key_destroy (Some k) ;;; h_buffer_destroy_zero (Some evo)) ;;
          hret (Some n)
      end
  | _, _, _ => hret None
  end.
(* stream_key.c:132-148 *)
Definition h_stream_key_from_bytes : bytes -> H (option hst) := from_proto pb_stream_key_unpack stream_key_fields h_stream_key_from_message.

(* transport_root_key_priv.c:38-67 *)
Definition h_root_key_from_message (m : pb_root_key) : H (option htr) :=
  match prk_secret m, prk_cipher m, prk_send m, prk_recv m with
  | Some s, Some c, Some x, Some y =>
      secret <-? h_buffer_create s else hret tt ;;
      match cipher_find (c mod 256) with
      | None => h_buffer_destroy_zero (Some secret) ;;; hret None
      | Some cph =>
          k <-? h_root_key_create (Some secret) cph x y else h_buffer_destroy_zero (Some secret) ;;
          hret (Some k)
      end
  | _, _, _, _ => hret None
  end.

(* transport_packet.c:211-276 *)
Definition h_tpacket_from_bytes (b : bytes) : H (option htp) :=
  r <-: tmeta_parse b ;;
  let '(meta, start_pos) := r in
  let mac_size := if tm_mac meta =? MAC_EC_P521 then signature_size P521 else 0 in
  if blen b <=? start_pos + mac_size then hret None
  else
    mac <-? (if mac_size =? 0 then hret None else h_buffer_copy_section b (blen b - mac_size) mac_size)
      for (if mac_size =? 0 then None else Some tt) else hret tt ;;
    body <-? h_buffer_copy_section b start_pos (blen b - mac_size - start_pos) else h_buffer_destroy mac ;;
    pkt <-? h_tpacket_create meta (Some body) else (h_buffer_destroy mac ;;; h_buffer_destroy (Some body)) ;;
    let pkt1 := {| htp_addr := htp_addr pkt; htp_network := htp_network pkt; htp_body := htp_body pkt; htp_mac := mac; htp_meta := htp_meta pkt |} in
    net <-? h_buffer_create b else h_tpacket_destroy (Some pkt1) ;;
    hret (Some {| htp_addr := htp_addr pkt1; htp_network := Some net; htp_body := htp_body pkt1; htp_mac := htp_mac pkt1; htp_meta := htp_meta pkt1 |}).
