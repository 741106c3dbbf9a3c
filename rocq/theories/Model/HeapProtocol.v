(* Operations of the messaging protocol on the heap of Model/Heap.v: ecdh_cipher_ctx.c,
   protocol.c, the encryption of key_exchange.c, payload.c and root_keys.c, and the part of
   wickr_ctx.c that reads packets, encrypts for storage and exports and imports keys.  They follow
   the functional models and add what is allocated, released and left behind.  [s] is the number
   of the random draw; [draft] is what decryption leaves in a buffer whose tag is wrong
   (Model/HeapEngine.v).  Simplification: the bytes of an argument are read once. *)
From Verif.Base Require Import Bytes.
From Verif.Model Require Import Buffer Cipher Ecdsa Kdf Prims Engine Keys EcdhCipher Exchange Packet Ctx Proto Heap HeapObjects HeapMessages HeapParse HeapWrite HeapEngine.
Local Open Scope N_scope.
Local Open Scope h_scope.

Section Protocol.
Context (P : prims).

(* ecdh_cipher_ctx.c:26-42 *)
Definition h_ecdh_ctx_create (crv : curve) (c : cipher) (s : nat) : H (option hex) :=
  k <-? h_ec_rand_key P crv s else hret tt ;;
  x <-? h_ecdh_ctx_create_key (Some k) c else h_ec_key_destroy (Some k) ;;
  hret (Some x).
(* ecdh_cipher_ctx.c:77-133; the parameters with the output length are on the stack *)
Definition h_ecdh_gen_cipher_key (x : hex) (remote : option hkey) (params : option hkm) : H (option hck) :=
  match remote, params with
  | Some r, Some k =>
      touch (hkm_addr k) ;;;
      if negb (kdf_kind_eqb (ka_kind (hkm_algo k)) KDF_HMAC_SHA2) then hret None
      else
        touch (hex_addr x) ;;;
        shared_secret <-? h_gen_shared_secret P (Some (hex_local x)) (Some r) else hret tt ;;
        kdf_result <-? h_perform_kdf_with P (with_output_size (hkm_algo k) (key_len (hex_cipher x))) (hkm_salt k) (hkm_info k) shared_secret
          else h_buffer_destroy_zero (Some shared_secret) ;;
        touch (hkr_addr kdf_result) ;;;
        key_data <-! h_buffer_copy (Some (hkr_hash kdf_result)) ;;
        h_kdf_result_destroy (Some kdf_result) ;;;
        h_buffer_destroy_zero (Some shared_secret) ;;;
        match key_data with
        | None => hret None
        | Some d =>
            n <-? h_cipher_key_create (hex_cipher x) (Some d) else h_buffer_destroy_zero (Some d) ;;
            hret (Some n)
        end
  | _, _ => hret None
  end.
(* ecdh_cipher_ctx.c:135-156 *)
Definition h_ecdh_cipher (x : hex) (plaintext : option hbuf) (remote : option hkey) (params : option hkm) (s : nat) : H (option hcr) :=
  match plaintext, remote, params with
  | Some p, Some r, Some k =>
      secret_key <-? h_ecdh_gen_cipher_key x (Some r) (Some k) else hret tt ;;
      c <-! h_aes256_encrypt P (Some p) None (Some secret_key) None s ;;
      h_cipher_key_destroy (Some secret_key) ;;;
      hret c
  | _, _, _ => hret None
  end.
(* ecdh_cipher_ctx.c:158-184 *)
Definition h_ecdh_decipher (x : hex) (ciphertext : option hcr) (remote : option hkey) (params : option hkm) (draft : bytes) : H (option hbuf) :=
  match ciphertext, remote, params with
  | Some c, Some r, Some k =>
      touch (hcr_addr c) ;;;
      touch (hex_addr x) ;;;
      if negb (cipher_id (hcr_cipher c) =? cipher_id (hex_cipher x)) then hret None
      else
        secret_key <-? h_ecdh_gen_cipher_key x (Some r) (Some k) else hret tt ;;
        p <-! h_aes256_decrypt P (Some c) None (Some secret_key) false draft ;;
        h_cipher_key_destroy (Some secret_key) ;;;
        hret p
  | _, _, _ => hret None
  end.

(* the receiver may be on the stack (protocol.c:762-767), so its device identifier and its chain
   are given *)
(* protocol.c:11-32 *)
Definition h_exchange_kdf_info (sender : hch) (dev_id : hbuf) (receiver : hch) (version : N) : H (option hbuf) :=
  if version =? 2 then h_buffer_copy (Some dev_id)
  else if (version =? 3) || (version =? 4) then
    touch (hch_addr sender) ;;;
    touch (hid_addr (hch_root sender)) ;;;
    touch (hkey_addr (hid_key (hch_root sender))) ;;;
    touch (hch_addr receiver) ;;;
    touch (hid_addr (hch_root receiver)) ;;;
    touch (hkey_addr (hid_key (hch_root receiver))) ;;;
    a <-! h_bytes (hkey_pub (hid_key (hch_root sender))) ;;
    b <-! h_bytes (hkey_pub (hid_key (hch_root receiver))) ;;
    d <-! h_bytes dev_id ;;
    h_concat_multi [Some a; Some b; Some d]
  else hret None.
(* protocol.c:34-81; the pre-shared key is released as it is when the parameters cannot be made *)
Definition h_exchange_kdf_meta (sender : hch) (dev_id : hbuf) (receiver : hch) (psk : option hbuf) (version : N) : H (option hkm) :=
  match (if (version =? 2) || (version =? 3) then Some KDF_HKDF_SHA256
         else if version =? 4 then Some KDF_HKDF_SHA512 else None) with
  | None => hret None
  | Some algo =>
      info <-? h_exchange_kdf_info sender dev_id receiver version else hret tt ;;
      psk_copy <-? h_buffer_copy psk for psk else h_buffer_destroy (Some info) ;;
      meta <-? h_kdf_meta_create algo psk_copy (Some info) else (h_buffer_destroy psk_copy ;;; h_buffer_destroy (Some info)) ;;
      hret (Some meta)
  end.
(* protocol.c:83-139 *)
Definition h_exchange_create_with_data (sender : option hch) (receiver : option hnd) (packet_exchange_key : option hkey)
    (data : option hbuf) (exchange_cipher : cipher) (psk : option hbuf) (version : N) (s : nat) : H (option hkx) :=
  match sender, receiver, packet_exchange_key with
  | Some se, Some r, Some k =>
      touch (hnd_addr r) ;;;
      match hnd_keypair r with
      | None => hret None
      | Some kp =>
          copy_exchange_key <-? h_ec_key_copy (Some k) else hret tt ;;
          ecdh_ctx <-? h_ecdh_ctx_create_key (Some copy_exchange_key) exchange_cipher else h_ec_key_destroy (Some copy_exchange_key) ;;
          kdf_params <-? h_exchange_kdf_meta se (hnd_dev_id r) (hnd_chain r) psk version else h_ecdh_ctx_destroy (Some ecdh_ctx) ;;
          touch (hkp_addr kp) ;;;
          cipher_result <-! h_ecdh_cipher ecdh_ctx data (Some (hkp_key kp)) (Some kdf_params) s ;;
          h_kdf_meta_destroy (Some kdf_params) ;;;
          h_ecdh_ctx_destroy (Some ecdh_ctx) ;;;
          match cipher_result with
          | None => hret None
          | Some t =>
              touch (hch_addr (hnd_chain r)) ;;;
              touch (hid_addr (hch_node (hnd_chain r))) ;;;
              id <-? h_buffer_copy (Some (hid_identifier (hch_node (hnd_chain r)))) else h_cipher_result_destroy (Some t) ;;
              x <-? h_key_exchange_create (Some id) (hkp_identifier kp) (Some t)
                else (h_cipher_result_destroy (Some t) ;;; h_buffer_destroy (Some id)) ;;
              hret (Some x)
          end
      end
  | _, _, _ => hret None
  end.
(* protocol.c:141-166 *)
Definition h_exchange_create_with_packet_key (sender : option hch) (receiver : option hnd) (packet_exchange_key : option hkey)
    (packet_key : option hck) (psk : option hbuf) (version : N) (s : nat) : H (option hkx) :=
  match sender, receiver, packet_exchange_key, packet_key with
  | Some se, Some r, Some k, Some pk =>
      serialized <-? h_cipher_key_serialize (Some pk) else hret tt ;;
      x <-! (touch (hck_addr pk) ;;;
             h_exchange_create_with_data (Some se) (Some r) (Some k) (Some serialized) (exchange_cipher_matching_cipher (hck_cipher pk)) psk version s) ;;
      h_buffer_destroy_zero (Some serialized) ;;;
      hret x
  | _, _, _, _ => hret None
  end.
(* protocol.c:193-237, after the tests for NULL; [key] is the receiver's *)
Definition h_exchange_derive_with (sender : hch) (dev_id : hbuf) (receiver : hch) (key : hkey) (packet_exchange_key : option hkey)
    (x : hkx) (psk : option hbuf) (version : N) (draft : bytes) : H (option hbuf) :=
  local <-? h_ec_key_copy (Some key) else hret tt ;;
  touch (hkx_addr x) ;;;
  touch (hcr_addr (hkx_text x)) ;;;
  ecdh_ctx <-? h_ecdh_ctx_create_key (Some local) (hcr_cipher (hkx_text x)) else h_ec_key_destroy (Some local) ;;
  kdf_params <-? h_exchange_kdf_meta sender dev_id receiver psk version else h_ecdh_ctx_destroy (Some ecdh_ctx) ;;
  decoded <-! h_ecdh_decipher ecdh_ctx (Some (hkx_text x)) packet_exchange_key (Some kdf_params) draft ;;
  h_ecdh_ctx_destroy (Some ecdh_ctx) ;;;
  h_kdf_meta_destroy (Some kdf_params) ;;;
  hret decoded.
Definition h_exchange_derive_data (sender : option hch) (receiver : option hnd) (packet_exchange_key : option hkey)
    (x : option hkx) (psk : option hbuf) (version : N) (draft : bytes) : H (option hbuf) :=
  match sender, receiver, x with
  | Some se, Some r, Some e =>
      touch (hnd_addr r) ;;;
      match hnd_keypair r with
      | None => hret None
      | Some kp => touch (hkp_addr kp) ;;; h_exchange_derive_with se (hnd_dev_id r) (hnd_chain r) (hkp_key kp) packet_exchange_key e psk version draft
      end
  | _, _, _ => hret None
  end.
(* protocol.c:183-191: what was derived as a key *)
Definition h_key_of (derived : H (option hbuf)) : H (option hck) :=
  buffer <-! derived ;;
  match buffer with
  | None => hret None
  | Some d =>
      c <-! h_bytes d ;;
      k <-! h_cipher_key_from_bytes c ;;
      h_buffer_destroy_zero (Some d) ;;;
      hret k
  end.
(* protocol.c:169-191 *)
Definition h_exchange_derive_packet_key (sender : option hch) (receiver : option hnd) (packet_exchange_key : option hkey)
    (x : option hkx) (psk : option hbuf) (version : N) (draft : bytes) : H (option hck) :=
  match sender, receiver, x with
  | Some _, Some _, Some _ => h_key_of (h_exchange_derive_data sender receiver packet_exchange_key x psk version draft)
  | _, _, _ => hret None
  end.

(* serialize, encrypt, clear: key_exchange.c:426-444, payload.c:166-182, root_keys.c:180-196 *)
Definition h_seal (serialized : H (option hbuf)) (key : hck) (s : nat) : H (option hcr) :=
  b <-? serialized else hret tt ;;
  c <-! h_aes256_encrypt P (Some b) None (Some key) None s ;;
  h_buffer_destroy_zero (Some b) ;;;
  hret c.
(* decrypt, parse, clear: key_exchange.c:446-464, payload.c:185-203 *)
Definition h_open {T} (decrypted : H (option hbuf)) (parse : bytes -> H (option T)) : H (option T) :=
  b <-? decrypted else hret tt ;;
  c <-! h_bytes b ;;
  x <-! parse c ;;
  h_buffer_destroy_zero (Some b) ;;;
  hret x.
(* key_exchange.c:426-444 *)
Definition h_exchange_set_encrypt (set : option hxs) (header_key : option hck) (s : nat) : H (option hcr) :=
  match set, header_key with
  | Some x, Some k => h_seal (h_exchange_set_serialize (Some x)) k s
  | _, _ => hret None
  end.
(* key_exchange.c:446-464 *)
Definition h_exchange_set_create_from_cipher (r : option hcr) (header_key : option hck) (draft : bytes) : H (option hxs) :=
  match r, header_key with
  | Some c, Some k => h_open (h_aes256_decrypt P (Some c) None (Some k) true draft) (h_exchange_set_from_bytes P)
  | _, _ => hret None
  end.
(* key_exchange.c:196-211; an unset slot is dereferenced *)
Fixpoint h_exchange_find (l : list (option hkx)) (identifier : hbuf) : H (option hkx) :=
  match l with
  | [] => hret None
  | None :: _ => hub
  | Some x :: r =>
      touch (hkx_addr x) ;;;
      a <-! h_bytes identifier ;;
      b <-! h_bytes (hkx_id x) ;;
      if buffer_is_equal (Some a) (Some b) then h_key_exchange_copy (Some x) else h_exchange_find r identifier
  end.
Definition h_exchange_set_find (set : option hxs) (identifier : option hbuf) : H (option hkx) :=
  match set, identifier with
  | Some x, Some i => touch (hxs_addr x) ;;; touch (harr_addr (hxs_items x)) ;;; h_exchange_find (harr_items (hxs_items x)) i
  | _, _ => hret None
  end.
(* payload.c:166-182 *)
Definition h_payload_encrypt (p : option hpy) (payload_key : option hck) (s : nat) : H (option hcr) :=
  match p, payload_key with
  | Some x, Some k => h_seal (h_payload_serialize (Some x)) k s
  | _, _ => hret None
  end.
(* payload.c:185-203 *)
Definition h_payload_create_from_cipher (r : option hcr) (payload_key : option hck) (draft : bytes) : H (option hpy) :=
  match r, payload_key with
  | Some c, Some k => h_open (h_aes256_decrypt P (Some c) None (Some k) true draft) h_payload_from_bytes
  | _, _ => hret None
  end.
(* root_keys.c:180-196 *)
Definition h_root_keys_export (keys : option hrk) (export_key : option hck) (s : nat) : H (option hcr) :=
  match keys, export_key with
  | Some x, Some k => h_seal (h_root_keys_serialize (Some x)) k s
  | _, _ => hret None
  end.

(* protocol.c:258-310; the bytes of the payload are used without a test *)
Definition h_packet_create_with_components (enc_header enc_payload : option hcr) (signing_key : option hkey) (version : N) (s : nat) : H (option hpt) :=
  match enc_payload, signing_key with
  | Some p, Some k =>
      header_bytes <-? h_cipher_result_serialize enc_header else hret tt ;;
      payload_bytes <-# h_cipher_result_serialize (Some p) ;;
      a <-! h_bytes header_bytes ;;
      b <-! h_bytes payload_bytes ;;
      let m := pb_packet_pack {| pq_header := a; pq_payload := b |} in
      result_buffer <-? h_buffer_create_empty (blen m) else (h_buffer_destroy (Some header_bytes) ;;; h_buffer_destroy (Some payload_bytes)) ;;
      content <-! h_fill result_buffer m ;;
      h_buffer_destroy (Some header_bytes) ;;;
      h_buffer_destroy (Some payload_bytes) ;;;
      touch (hkey_addr k) ;;;
      signature <-? h_ec_sign P (Some k) (Some content) (digest_matching_curve (hkey_curve k)) s else h_buffer_destroy (Some content) ;;
      packet <-? h_packet_create version (Some content) (Some signature)
        else (h_buffer_destroy (Some content) ;;; h_ecdsa_result_destroy (Some signature)) ;;
      hret (Some packet)
  | _, _ => hret None
  end.

(* wickr_ctx.c:26-55; the digest is released as it is when it cannot be made a key *)
Definition h_gen_header_key (c : cipher) (id_chain : hch) : H (option hck) :=
  touch (hch_addr id_chain) ;;;
  touch (hid_addr (hch_root id_chain)) ;;;
  touch (hid_addr (hch_node id_chain)) ;;;
  d <-? h_sha2 P (Some (hid_identifier (hch_root id_chain))) (Some (hid_identifier (hch_node id_chain))) (digest_matching_cipher c) else hret tt ;;
  k <-? h_cipher_key_create c (Some d) else h_buffer_destroy (Some d) ;;
  hret (Some k).

(* protocol.c:453-471 *)
Definition h_parse_failure (st : sig_status) (e : decode_error) : H (option hpa) := h_parse_result_create None None None st e.
(* src/protobuf/message.proto, message packet, unpacked *)
Definition packet_fields (m : pb_packet) : list bytes := [] :: olist (Some (pq_header m)) ++ olist (Some (pq_payload m)).
(* protocol.c:711-745: the recipient's exchange was looked up and [found]; then the payload *)
Definition h_parse_finish (m : list block * pb_packet) (header : hxs) (found : option hkx) : H (option hpa) :=
  payload_result <-! h_cipher_result_from_bytes (pq_payload (snd m)) ;;
  h_free_unpacked m ;;;
  match payload_result with
  | None =>
      h_key_exchange_destroy found ;;;
      h_exchange_set_destroy (Some header) ;;;
      h_parse_failure SIG_VALID ERROR_CORRUPT_PACKET
  | Some pr =>
      f <-? h_parse_result_create (Some header) found (Some pr) SIG_VALID E_SUCCESS
        else (h_key_exchange_destroy found ;;; h_exchange_set_destroy (Some header) ;;; h_cipher_result_destroy (Some pr)) ;;
      hret (Some f)
  end.
(* protocol.c:661-746, with the header key function of wickr_ctx.c *)
Definition h_parse_result_from_packet (packet : option hpt) (receiver_node_id : option hbuf) (sender : option hch) (draft : bytes) : H (option hpa) :=
  match packet, sender with
  | Some p, Some se =>
      touch (hch_addr se) ;;;
      touch (hid_addr (hch_node se)) ;;;
      touch (hkey_addr (hid_key (hch_node se))) ;;;
      touch (hpt_addr p) ;;;
      touch (hsig_addr (hpt_sig p)) ;;;
      if negb (curve_id (hkey_curve (hid_key (hch_node se))) =? curve_id (hsig_curve (hpt_sig p))) then h_parse_failure SIG_INVALID ERROR_INVALID_INPUT
      else
        is_valid <-! h_ec_verify P (Some (hpt_sig p)) (Some (hid_key (hch_node se))) (Some (hpt_content p)) ;;
        if negb is_valid then h_parse_failure SIG_INVALID ERROR_MAC_INVALID
        else
          c <-! h_bytes (hpt_content p) ;;
          unpacked <-! h_unpack pb_packet_unpack packet_fields c ;;
          match unpacked with
          | None => h_parse_failure SIG_VALID ERROR_CORRUPT_PACKET
          | Some m =>
              header_cipher_result <-! h_cipher_result_from_bytes (pq_header (snd m)) ;;
              match header_cipher_result with
              | None => h_free_unpacked m ;;; h_parse_failure SIG_VALID ERROR_CORRUPT_PACKET
              | Some hc =>
                  touch (hcr_addr hc) ;;;
                  header_key <-! h_gen_header_key (hcr_cipher hc) se ;;
                  header <-! h_exchange_set_create_from_cipher (Some hc) header_key draft ;;
                  h_cipher_key_destroy header_key ;;;
                  h_cipher_result_destroy (Some hc) ;;;
                  match header with
                  | None => h_free_unpacked m ;;; h_parse_failure SIG_VALID ERROR_CORRUPT_PACKET
                  | Some hd =>
                      match receiver_node_id with
                      | None => h_parse_finish m hd None
                      | Some i =>
                          found <-! h_exchange_set_find (Some hd) (Some i) ;;
                          match found with
                          | None => h_exchange_set_destroy (Some hd) ;;; h_free_unpacked m ;;; h_parse_failure SIG_VALID ERROR_NODE_NOT_FOUND
                          | Some x => h_parse_finish m hd (Some x)
                          end
                      end
                  end
              end
          end
  | _, _ => h_parse_failure SIG_UNKNOWN ERROR_INVALID_INPUT
  end.
(* protocol.c:518-530 *)
Definition h_decode_failure (e : decode_error) : H (option hde) := h_decode_result_create e None None.
(* protocol.c:749-799.  [draft1] and [draft2] are those of the key and of the payload. *)
Definition h_decode_result_from_parse_result (packet : hpt) (parse_result : option hpa) (receiver_dev_id : hbuf) (receiver_key : option hkey)
    (receiver : hch) (sender : option hch) (draft1 draft2 : bytes) : H (option hde) :=
  match parse_result with
  | None => hret None
  | Some a =>
      touch (hpa_addr a) ;;;
      match hpa_err a, hpa_status a, receiver_key with
      | E_SUCCESS, SIG_VALID, Some rk =>
          match hpa_set a with
          | None => hub
          | Some set =>
              touch (hxs_addr set) ;;;
              touch (hpt_addr packet) ;;;
              cipher_key <-! match sender, hpa_exchange a with
                             | Some se, Some x =>
                                 h_key_of (h_exchange_derive_with se receiver_dev_id receiver rk (Some (hxs_sender set)) x None (hpt_version packet) draft1)
                             | _, _ => hret None
                             end ;;
              match cipher_key with
              | None => h_decode_failure ERROR_KEY_EXCHANGE_FAILED
              | Some k =>
                  payload <-! h_payload_create_from_cipher (hpa_payload a) (Some k) draft2 ;;
                  match payload with
                  | None => h_cipher_key_destroy (Some k) ;;; h_decode_failure ERROR_KEY_EXCHANGE_FAILED
                  | Some pl =>
                      d <-? h_decode_result_create E_SUCCESS (Some pl) (Some k) else (h_cipher_key_destroy (Some k) ;;; h_payload_destroy (Some pl)) ;;
                      hret (Some d)
                  end
              end
          end
      | _, _, _ => hret None
      end
  end.

(* wickr_ctx.c:719-737 *)
Definition h_ctx_packet_create (packet : option hpt) (sender : option hch) (parse_result : option hpa) : H (option hcp) :=
  match packet, sender, parse_result with
  | Some p, Some s, Some r => x <-? alloc T_ctx_packet [] else hret tt ;; hret (Some {| hcp_addr := x; hcp_packet := p; hcp_sender := s; hcp_parse := r |})
  | _, _, _ => hret None
  end.
(* wickr_ctx.c:788-828 *)
Definition h_ctx_read_packet (packet_buffer node_search_id : option hbuf) (sender : option hch) (draft : bytes) : H (option hcp) :=
  match packet_buffer with
  | None => hret None
  | Some b =>
      c <-! h_bytes b ;;
      packet <-? h_packet_from_bytes c else hret tt ;;
      result <-? h_parse_result_from_packet (Some packet) node_search_id sender draft else h_packet_destroy (Some packet) ;;
      chain_copy <-? h_chain_copy sender else (h_packet_destroy (Some packet) ;;; h_parse_result_destroy (Some result)) ;;
      ctx_packet <-? h_ctx_packet_create (Some packet) (Some chain_copy) (Some result)
        else (h_chain_destroy (Some chain_copy) ;;; h_packet_destroy (Some packet) ;;; h_parse_result_destroy (Some result)) ;;
      hret (Some ctx_packet)
  end.
(* wickr_ctx.c:830-843; a NULL context is dereferenced *)
Definition h_ctx_stateless_parse_packet (node_search_id packet_buffer : option hbuf) (sender : option hch) (draft : bytes) : H (option hcp) :=
  h_ctx_read_packet packet_buffer node_search_id sender draft.
Definition h_ctx_parse_packet (ctx : option hcx) (packet_buffer : option hbuf) (sender : option hch) (draft : bytes) : H (option hcp) :=
  match ctx with
  | None => hub
  | Some x =>
      touch (hcx_addr x) ;;;
      touch (hch_addr (hcx_chain x)) ;;;
      touch (hid_addr (hch_node (hcx_chain x))) ;;;
      h_ctx_read_packet packet_buffer (Some (hid_identifier (hch_node (hcx_chain x)))) sender draft
  end.
Definition h_ctx_parse_packet_no_decode (ctx : option hcx) (packet_buffer : option hbuf) (sender : option hch) (draft : bytes) : H (option hcp) :=
  match ctx with
  | None => hub
  | Some _ => h_ctx_read_packet packet_buffer None sender draft
  end.
(* wickr_ctx.c:845-852 *)
Definition h_ctx_decode_packet (ctx : option hcx) (packet : option hcp) (keypair : option hkey) (draft1 draft2 : bytes) : H (option hde) :=
  match ctx, packet with
  | Some x, Some q =>
      touch (hcp_addr q) ;;;
      touch (hcx_addr x) ;;;
      touch (hdi_addr (hcx_dev x)) ;;;
      h_decode_result_from_parse_result (hcp_packet q) (Some (hcp_parse q)) (hdi_msg (hcx_dev x)) keypair (hcx_chain x) (Some (hcp_sender q)) draft1 draft2
  | _, _ => hret None
  end.

(* wickr_ctx.c:670-705 *)
Definition h_ctx_cipher_local (ctx : option hcx) (plaintext : option hbuf) (s : nat) : H (option hcr) :=
  match ctx, plaintext with
  | Some x, Some p => touch (hcx_addr x) ;;; touch (hsk_addr (hcx_storage x)) ;;; h_aes256_encrypt P (Some p) None (Some (hsk_local (hcx_storage x))) None s
  | _, _ => hret None
  end.
Definition h_ctx_decipher_local (ctx : option hcx) (cipher_text : option hcr) (draft : bytes) : H (option hbuf) :=
  match ctx, cipher_text with
  | Some x, Some c => touch (hcx_addr x) ;;; touch (hsk_addr (hcx_storage x)) ;;; h_aes256_decrypt P (Some c) None (Some (hsk_local (hcx_storage x))) true draft
  | _, _ => hret None
  end.
Definition h_ctx_cipher_remote (ctx : option hcx) (plaintext : option hbuf) (s : nat) : H (option hcr) :=
  match ctx, plaintext with
  | Some x, Some p => touch (hcx_addr x) ;;; touch (hsk_addr (hcx_storage x)) ;;; h_aes256_encrypt P (Some p) None (Some (hsk_remote (hcx_storage x))) None s
  | _, _ => hret None
  end.
Definition h_ctx_decipher_remote (ctx : option hcx) (cipher_text : option hcr) (draft : bytes) : H (option hbuf) :=
  match ctx, cipher_text with
  | Some x, Some c => touch (hcx_addr x) ;;; touch (hsk_addr (hcx_storage x)) ;;; h_aes256_decrypt P (Some c) None (Some (hsk_remote (hcx_storage x))) true draft
  | _, _ => hret None
  end.

(* encrypt under a passphrase, clear: wickr_ctx.c:283-293, 639-649 *)
Definition h_protect (serialized : H (option hbuf)) (passphrase : hbuf) (s : nat) : H (option hbuf) :=
  b <-? serialized else hret tt ;;
  c <-! h_kdf_cipher P KDF_SCRYPT_2_17 default_cipher (Some b) (Some passphrase) s ;;
  h_buffer_destroy_zero (Some b) ;;;
  hret c.
(* wickr_ctx.c:277-293 *)
Definition h_export_recovery_key_passphrase (result : option hgr) (passphrase : option hbuf) (s : nat) : H (option hbuf) :=
  match result, passphrase with
  | Some g, Some p => touch (hgr_addr g) ;;; h_protect (h_cipher_key_serialize (Some (hgr_recovery g))) p s
  | _, _ => hret None
  end.
(* wickr_ctx.c:295-311 *)
Definition h_import_recovery_key_passphrase (exported passphrase : option hbuf) (draft : bytes) : H (option hck) :=
  match exported, passphrase with
  | Some e, Some p => h_open (h_kdf_decipher P (Some e) (Some p) draft) h_cipher_key_from_bytes
  | _, _ => hret None
  end.
(* wickr_ctx.c:633-649 *)
Definition h_ctx_export_storage_keys (ctx : option hcx) (passphrase : option hbuf) (s : nat) : H (option hbuf) :=
  match ctx, passphrase with
  | Some x, Some p => touch (hcx_addr x) ;;; h_protect (h_storage_keys_serialize (Some (hcx_storage x))) p s
  | _, _ => hret None
  end.
(* wickr_ctx.c:651-667 *)
Definition h_ctx_import_storage_keys (exported passphrase : option hbuf) (draft : bytes) : H (option hsk) :=
  match exported, passphrase with
  | Some e, Some p => h_open (h_kdf_decipher P (Some e) (Some p) draft) h_storage_keys_from_bytes
  | _, _ => hret None
  end.
(* wickr_ctx.c:127-150 *)
Definition h_ctx_gen_import_recovery (recovery_data : option hbuf) (recovery_key : option hck) (draft : bytes) : H (option hrk) :=
  match recovery_data, recovery_key with
  | Some d, Some k =>
      h_open (c <-! h_bytes d ;;
              ciphered_keys <-? h_cipher_result_from_bytes c else hret tt ;;
              decrypt_result <-! h_aes256_decrypt P (Some ciphered_keys) None (Some k) true draft ;;
              h_cipher_result_destroy (Some ciphered_keys) ;;;
              hret decrypt_result) (h_root_keys_from_bytes P)
  | _, _ => hret None
  end.
(* wickr_ctx.c:314-330 *)
Definition h_make_recovery (result : option hgr) (s : nat) : H (option hbuf) :=
  match result with
  | None => hret None
  | Some g =>
      touch (hgr_addr g) ;;;
      export_result <-? h_root_keys_export (Some (hgr_root g)) (Some (hgr_recovery g)) s else hret tt ;;
      b <-! h_cipher_result_serialize (Some export_result) ;;
      h_cipher_result_destroy (Some export_result) ;;;
      hret b
  end.

End Protocol.
