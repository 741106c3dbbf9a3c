(* Model of protocol.c:239-799 and encoder_result.c (src/wickrcrypto/src).
   Simplifications: the engine pointer is never NULL; a node array is the list of its items
   (None = unset) and holds fewer than 2^31 of them, so that the int counters do not overflow. *)
From Verif.Base Require Import Bytes Monad.
From Verif.Model Require Import Buffer Cipher Ecdsa Prims Engine Proto Identity Node Payload Exchange.
Local Open Scope N_scope.
Local Open Scope res_scope.
Local Open Scope m_scope.

(* protocol.h:42,48; protocol.c:8 *)
Definition OLDEST_PACKET_VERSION : N := 2.
Definition CURRENT_PACKET_VERSION : N := 4.
Definition PACKET_META_SIZE : N := 2.

(* protocol.h: wickr_packet_t, wickr_decode_error, wickr_packet_signature_status, wickr_parse_result_t, wickr_decode_result_t *)
Record packet := { pt_version : N; pt_content : bytes; pt_signature : ecdsa_result }.
Inductive decode_error := E_SUCCESS | ERROR_INVALID_INPUT | ERROR_NODE_NOT_FOUND | ERROR_CORRUPT_PACKET
                        | ERROR_KEY_EXCHANGE_FAILED | ERROR_MAC_INVALID.
Inductive sig_status := SIG_UNKNOWN | SIG_VALID | SIG_INVALID.
Record parse_result := { pa_set : option exchange_set; pa_exchange : option key_exchange; pa_payload : option cipher_result;
                         pa_status : sig_status; pa_err : decode_error }.
Record decode_result := { de_err : decode_error; de_payload : option payload; de_key : option cipher_key }.
Record encoder_result := { en_key : cipher_key; en_packet : packet }.

(* protocol.c:239-256; the version is a uint8_t *)
Definition packet_create (version : N) (content : option bytes) (signature : option ecdsa_result) : option packet :=
  match content, signature with
  | Some c, Some s => Some {| pt_version := version; pt_content := c; pt_signature := s |}
  | _, _ => None
  end.
(* protocol.c:312-380 *)
Definition packet_create_from_buffer (buffer : option bytes) : res packet :=
  match buffer with
  | None => Null
  | Some b =>
      if blen b <=? PACKET_META_SIZE then Null
      else
        b0 <- rd b 0 ;;
        let version := b2n b0 in
        if (CURRENT_PACKET_VERSION <? version) || (version <? OLDEST_PACKET_VERSION) then Null
        else
          b1 <- rd b 1 ;;
          let sig_type := if version =? 2 then N.land (b2n b1) 15 else b2n b1 in
          curve <~ curve_find sig_type ;;
          if blen b <=? PACKET_META_SIZE + signature_size curve then Null
          else
            let signature_start := blen b - signature_size curve in
            sig_buffer <- memread b signature_start (signature_size curve) ;;
            signature <- ecdsa_result_create_from_buffer (Some sig_buffer) ;;
            if negb (digest_id (es_digest signature) =? digest_id (digest_matching_curve curve)) ||
               negb (curve_id (es_curve signature) =? curve_id curve) then Null
            else
              content <~ buffer_copy_section b PACKET_META_SIZE (blen b - signature_size curve - PACKET_META_SIZE) ;;
              lift (packet_create version (Some content) (Some signature))
  end.
(* protocol.c:382-410; curve identifiers fit a byte *)
Definition packet_serialize (p : option packet) : option bytes :=
  match p with
  | None => None
  | Some x =>
      match ecdsa_result_serialize (Some (pt_signature x)) with
      | None => None
      | Some sig_data =>
          if negb (blen sig_data =? signature_size (es_curve (pt_signature x))) then None
          else buffer_concat_multi [Some [n2b (pt_version x)]; Some [n2b (curve_id (es_curve (pt_signature x)))];
                                    Some (pt_content x); Some sig_data]
      end
  end.
(* protocol.c:412-439 *)
Definition packet_copy (source : option packet) : option packet :=
  match source with
  | None => None
  | Some s =>
      match buffer_copy (Some (pt_content s)), ecdsa_result_copy (Some (pt_signature s)) with
      | Some c, Some sg => packet_create (pt_version s) (Some c) (Some sg)
      | _, _ => None
      end
  end.
(* protocol.c:453-485 *)
Definition parse_failure (s : sig_status) (e : decode_error) : parse_result :=
  {| pa_set := None; pa_exchange := None; pa_payload := None; pa_status := s; pa_err := e |}.
Definition parse_success (header : option exchange_set) (x : option key_exchange) (enc_payload : option cipher_result) : parse_result :=
  {| pa_set := header; pa_exchange := x; pa_payload := enc_payload; pa_status := SIG_VALID; pa_err := E_SUCCESS |}.
(* protocol.c:487-505; parts that cannot be copied are dropped *)
Definition parse_result_copy (source : option parse_result) : option parse_result :=
  match source with
  | None => None
  | Some s => Some {| pa_set := exchange_set_copy (pa_set s); pa_exchange := key_exchange_copy (pa_exchange s);
                      pa_payload := cipher_result_copy (pa_payload s); pa_status := pa_status s; pa_err := pa_err s |}
  end.
(* protocol.c:518-542 *)
Definition decode_failure (e : decode_error) : decode_result := {| de_err := e; de_payload := None; de_key := None |}.
Definition decode_success (p : payload) (k : cipher_key) : decode_result := {| de_err := E_SUCCESS; de_payload := Some p; de_key := Some k |}.
(* protocol.c:544-560 *)
Definition decode_result_copy (source : option decode_result) : option decode_result :=
  match source with
  | None => None
  | Some s => Some {| de_err := de_err s; de_payload := payload_copy (de_payload s); de_key := cipher_key_copy (de_key s) |}
  end.
(* encoder_result.c:5-20 *)
Definition encoder_result_create (k : option cipher_key) (p : option packet) : option encoder_result :=
  match k, p with
  | Some x, Some y => Some {| en_key := x; en_packet := y |}
  | _, _ => None
  end.
(* encoder_result.c:22-49 *)
Definition encoder_result_copy (source : option encoder_result) : option encoder_result :=
  match source with
  | None => None
  | Some s => match cipher_key_copy (Some (en_key s)), packet_copy (Some (en_packet s)) with
              | Some k, Some p => encoder_result_create (Some k) (Some p)
              | _, _ => None
              end
  end.

(* src/protobuf/message.proto, message packet *)
Record pb_packet := { pq_header : bytes; pq_payload : bytes }.
Definition pb_packet_pack (m : pb_packet) : bytes := (f_len 1 (pq_header m) ++ f_len 2 (pq_payload m))%list.
Definition pb_packet_unpack (b : bytes) : option pb_packet :=
  match scan b with
  | None => None
  | Some fs =>
      match get_bytes 1 fs None, get_bytes 2 fs None with
      | Some (Some h), Some (Some p) => Some {| pq_header := h; pq_payload := p |}
      | _, _ => None
      end
  end.

Section Packet.
Context (P : prims).
(* protocol.c:258-310; the serialized payload is used without a NULL test *)
Definition packet_create_with_components (enc_header enc_payload : option cipher_result) (signing_key : option ec_key) (version : N) : M packet :=
  match enc_payload, signing_key with
  | Some p, Some k =>
      enc_header_bytes <-~ cipher_result_serialize enc_header ;;
      match cipher_result_serialize (Some p) with
      | None => mres UB
      | Some enc_payload_bytes =>
          content <-~ pack_buffer (pb_packet_pack {| pq_header := enc_header_bytes; pq_payload := enc_payload_bytes |}) ;;
          signature <-- ec_sign P (Some k) (Some content) (digest_matching_curve (ek_curve k)) ;;
          mlift (packet_create version (Some content) (Some signature))
      end
  | _, _ => mres Null
  end.
(* protocol.c:573-588 with node.c:52-56; also the array with the nodes as the validation leaves them *)
Fixpoint recipients_validate (l : list (option node)) : bool * list (option node) :=
  match l with
  | [] => (true, [])
  | None :: r => (false, None :: r)
  | Some n :: r =>
      let v := node_verify_signature_chain P n in
      if negb (fst v) then (false, Some (snd v) :: r)
      else let w := recipients_validate r in (fst w, Some (snd v) :: snd w)
  end.
(* protocol.c:613-634: one exchange per recipient *)
Fixpoint make_exchanges (sender : chain) (exchange_key : option ec_key) (payload_key : cipher_key) (version : N)
    (l : list (option node)) : M (list (option key_exchange)) :=
  match l with
  | [] => mret []
  | n :: r =>
      x <-- exchange_create_with_packet_key P (Some sender) n exchange_key (Some payload_key) None version ;;
      r' <-- make_exchanges sender exchange_key payload_key version r ;;
      mret (Some x :: r')
  end.
(* protocol.c:591-658; the caller's recipients are left as recipients_validate says.
   An exchange array that could not be made refuses its first item. *)
Definition packet_create_from_components (header_key payload_key : option cipher_key) (exchange_key : option ec_key)
    (p : option payload) (recipients : option (list (option node))) (sender : option chain) (version : N) : M packet :=
  match header_key, payload_key, p, recipients, sender with
  | Some hk, Some pk, Some pl, Some rs, Some s =>
      if N.of_nat (length rs) =? 0 then mres Null
      else
        let v := recipients_validate rs in
        if negb (fst v) then mres Null
        else
          exchanges <-- (if exchange_array_ok (N.of_nat (length rs)) then make_exchanges s exchange_key pk version (snd v)
                         else x <-- exchange_create_with_packet_key P (Some s) (hd None (snd v)) exchange_key (Some pk) None version ;; mres Null) ;;
          match exchange_key with
          | None => mres UB                      (* no recipient can have been served *)
          | Some ek =>
              enc_header <-- exchange_set_encrypt P (Some {| xs_sender := ek; xs_items := exchanges |}) (Some hk) ;;
              enc_payload <-- payload_encrypt P (Some pl) (Some pk) ;;
              packet_create_with_components (Some enc_header) (Some enc_payload) (Some (id_key (ch_node s))) version
          end
  | _, _, _, _, _ => mres Null
  end.

(* protocol.c:661-746; [keygen] is the header key function of the caller *)
Definition parse_result_from_packet (keygen : cipher -> chain -> option cipher_key) (p : option packet) (receiver_node_id : option bytes)
    (sender : option chain) : res parse_result :=
  match p, sender with
  | Some pk, Some s =>
      let key := id_key (ch_node s) in
      if negb (curve_id (ek_curve key) =? curve_id (es_curve (pt_signature pk))) then Val (parse_failure SIG_INVALID ERROR_INVALID_INPUT)
      else if negb (ec_verify P (Some (pt_signature pk)) (Some key) (Some (pt_content pk))) then Val (parse_failure SIG_INVALID ERROR_MAC_INVALID)
      else match pb_packet_unpack (pt_content pk) with
           | None => Val (parse_failure SIG_VALID ERROR_CORRUPT_PACKET)
           | Some m =>
               header_cipher_result <- rtry (cipher_result_from_buffer (Some (pq_header m))) ;;
               match header_cipher_result with
               | None => Val (parse_failure SIG_VALID ERROR_CORRUPT_PACKET)
               | Some hc =>
                   header <- rtry (exchange_set_create_from_cipher P (Some hc) (keygen (cr_cipher hc) s)) ;;
                   match header with
                   | None => Val (parse_failure SIG_VALID ERROR_CORRUPT_PACKET)
                   | Some h =>
                       found <- (match receiver_node_id with
                                 | None => Val (Some None)
                                 | Some i => x <- rtry (exchange_set_find (Some h) (Some i)) ;;
                                             Val (match x with Some e => Some (Some e) | None => None end)
                                 end) ;;
                       match found with
                       | None => Val (parse_failure SIG_VALID ERROR_NODE_NOT_FOUND)
                       | Some x =>
                           payload_result <- rtry (cipher_result_from_buffer (Some (pq_payload m))) ;;
                           match payload_result with
                           | None => Val (parse_failure SIG_VALID ERROR_CORRUPT_PACKET)
                           | Some pr => Val (parse_success (Some h) x (Some pr))
                           end
                       end
                   end
               end
           end
  | _, _ => Val (parse_failure SIG_UNKNOWN ERROR_INVALID_INPUT)
  end.
(* protocol.c:749-799; the key exchange set of a successful parse is dereferenced *)
Definition decode_result_from_parse_result (p : packet) (pr : option parse_result) (receiver_dev_id : bytes) (receiver_key : option ec_key)
    (receiver : chain) (sender : option chain) : res decode_result :=
  match pr, receiver_key with
  | Some a, Some rk =>
      match pa_err a, pa_status a with
      | E_SUCCESS, SIG_VALID =>
          let n := {| nd_dev_id := receiver_dev_id; nd_chain := receiver;
                      nd_keypair := Some {| kp_identifier := 0; kp_key := rk; kp_signature := None |};
                      nd_status := S_UNKNOWN; nd_cache := None |} in
          match pa_set a with
          | None => UB
          | Some set =>
              key <- rtry (exchange_derive_packet_key P sender (Some n) (Some (xs_sender set)) (pa_exchange a) None (pt_version p)) ;;
              match key with
              | None => Val (decode_failure ERROR_KEY_EXCHANGE_FAILED)
              | Some k =>
                  pl <- rtry (payload_create_from_cipher P (pa_payload a) (Some k)) ;;
                  match pl with
                  | None => Val (decode_failure ERROR_KEY_EXCHANGE_FAILED)
                  | Some x => Val (decode_success x k)
                  end
              end
          end
      | _, _ => Null
      end
  | _, _ => Null
  end.
End Packet.
