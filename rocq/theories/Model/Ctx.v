(* Model of wickr_ctx.c (src/wickrcrypto/src).
   Simplifications: contexts hold the default engine, with AES-256-GCM and P-521, so the engine
   is the parameter P; structures made by the library have their mandatory members. *)
From Verif.Base Require Import Bytes Monad.
From Verif.Model Require Import Buffer Cipher Ecdsa Kdf Prims Engine Proto Identity Node Keys Payload Exchange Packet.
Local Open Scope N_scope.
Local Open Scope res_scope.
Local Open Scope m_scope.

(* wickr_ctx.h:73-84,98-102,455-459 *)
Definition DEFAULT_PKT_ENC_VERSION : N := 4.
Record ctx := { cx_dev : dev_info; cx_chain : chain; cx_storage : storage_keys; cx_header_key : cipher_key; cx_version : N }.
Record gen_result := { gr_ctx : ctx; gr_recovery_key : cipher_key; gr_root_keys : root_keys }.
Record ctx_packet := { cp_packet : packet; cp_sender : chain; cp_parse : parse_result }.

(* wickr_ctx.c:7-24 *)
Definition gen_result_create (c : option ctx) (recovery_key : option cipher_key) (k : option root_keys) : option gen_result :=
  match c, recovery_key, k with
  | Some x, Some r, Some y => Some {| gr_ctx := x; gr_recovery_key := r; gr_root_keys := y |}
  | _, _, _ => None
  end.

(* src/protobuf/storage.proto, message ctx *)
Record pb_ctx := { px_storage : option pb_storage_keys; px_chain : option pb_chain }.
Definition pb_ctx_pack (m : pb_ctx) : bytes :=
  (f_len_opt 1 (option_map pb_storage_keys_pack (px_storage m)) ++ f_len_opt 2 (option_map pb_chain_pack (px_chain m)))%list.
Definition pb_ctx_unpack (b : bytes) : option pb_ctx :=
  match scan b with
  | None => None
  | Some fs =>
      match get_msg 1 pb_storage_keys_unpack pb_storage_keys_merge fs None, get_msg 2 pb_chain_unpack pb_chain_merge fs None with
      | Some s, Some c => Some {| px_storage := s; px_chain := c |}
      | _, _ => None
      end
  end.
(* wickr_ctx.c:484-518 *)
Definition ctx_to_proto (c : ctx) : option pb_ctx :=
  match chain_build_proto (cx_chain c) true with
  | None => None
  | Some ch => match storage_keys_to_proto (Some (cx_storage c)) with
               | None => None
               | Some st => Some {| px_storage := Some st; px_chain := Some ch |}
               end
  end.
(* wickr_ctx.c:550-574 *)
Definition ctx_serialize (c : option ctx) : option bytes :=
  match c with
  | None => None
  | Some x => match ctx_to_proto x with None => None | Some m => pack_buffer (pb_ctx_pack m) end
  end.
(* wickr_ctx.c:719-737 *)
Definition ctx_packet_create (p : option packet) (sender : option chain) (r : option parse_result) : option ctx_packet :=
  match p, sender, r with
  | Some x, Some s, Some y => Some {| cp_packet := x; cp_sender := s; cp_parse := y |}
  | _, _, _ => None
  end.

Section Ctx.
Context (P : prims).

(* wickr_ctx.c:26-55 *)
Definition gen_header_key (c : cipher) (ch : chain) : option cipher_key :=
  match sha2 P (Some (id_identifier (ch_root ch))) (Some (id_identifier (ch_node ch))) (digest_matching_cipher c) with
  | None => None
  | Some d => cipher_key_create c (Some d)
  end.
(* wickr_ctx.c:385-416 *)
Definition ctx_create (info : option dev_info) (ch : option chain) (st : option storage_keys) : option ctx :=
  match info, ch, st with
  | Some i, Some c, Some s =>
      match gen_header_key default_cipher c with
      | None => None
      | Some hk => Some {| cx_dev := i; cx_chain := c; cx_storage := s; cx_header_key := hk; cx_version := DEFAULT_PKT_ENC_VERSION |}
      end
  | _, _, _ => None
  end.
(* wickr_ctx.c:418-456; the new context is written without a NULL test *)
Definition ctx_copy (c : option ctx) : res ctx :=
  match c with
  | None => Null
  | Some x =>
      match dev_info_copy (Some (cx_dev x)), chain_copy (Some (cx_chain x)), storage_keys_copy (Some (cx_storage x)) with
      | Some i, Some ch, Some st =>
          match ctx_create (Some i) (Some ch) (Some st) with
          | None => UB
          | Some y => Val {| cx_dev := cx_dev y; cx_chain := cx_chain y; cx_storage := cx_storage y;
                             cx_header_key := cx_header_key y; cx_version := cx_version x |}
          end
      | _, _, _ => Null
      end
  end.

(* wickr_ctx.c:179-274 *)
Definition ctx_gen_with_root_keys (info : option dev_info) (keys : option root_keys) (identifier : option bytes) : M gen_result :=
  match info, keys, identifier with
  | Some i, Some k, Some id =>
      sig_key_copy <-~ ec_key_copy (Some (rk_signature k)) ;;
      identifier_copy <-~ buffer_copy (Some id) ;;
      root_identity <-~ identity_create ID_ROOT (Some identifier_copy) (Some sig_key_copy) None ;;
      node_identity <-- node_identity_gen P (Some root_identity) None ;;
      ch <-~ chain_create (Some root_identity) (Some node_identity) ;;
      let v := chain_validate P ch in
      if negb (fst v) then mres Null
      else
        st <-~ root_keys_localize P (Some k) (Some i) ;;
        info_copy <-~ dev_info_copy (Some i) ;;
        c <-~ ctx_create (Some info_copy) (Some (snd v)) (Some st) ;;
        recovery_key <-- cipher_key_random P default_cipher ;;
        mlift (gen_result_create (Some c) (Some recovery_key) (root_keys_copy (Some k)))
  | _, _, _ => mres Null
  end.
(* wickr_ctx.c:57-73 *)
Definition ctx_gen_new (info : option dev_info) (identifier : option bytes) : M gen_result :=
  match info, identifier with
  | Some i, Some id =>
      keys <-- root_keys_generate P ;;
      ctx_gen_with_root_keys (Some i) (Some keys) (Some id)
  | _, _ => mres Null
  end.
(* wickr_ctx.c:75-100 *)
Definition ctx_gen_new_with_sig_key (info : option dev_info) (sig_key : option ec_key) (identifier : option bytes) : M gen_result :=
  match info, identifier with
  | Some i, Some id =>
      keys <-- root_keys_generate P ;;
      sk <-~ ec_key_copy sig_key ;;
      ctx_gen_with_root_keys (Some i) (Some {| rk_signature := sk; rk_node := rk_node keys; rk_remote := rk_remote keys |}) (Some id)
  | _, _ => mres Null
  end.
(* wickr_ctx.c:127-150 *)
Definition ctx_gen_import_recovery (recovery_data : option bytes) (recovery_key : option cipher_key) : res root_keys :=
  match recovery_data, recovery_key with
  | Some d, Some k =>
      ciphered_keys <- cipher_result_from_buffer (Some d) ;;
      decrypted <- aes256_decrypt P (Some ciphered_keys) None (Some k) true ;;
      root_keys_create_from_buffer P (Some decrypted)
  | _, _ => Null
  end.
(* wickr_ctx.c:152-177; the generated result is used without a NULL test *)
Definition ctx_gen_with_recovery (info : option dev_info) (recovery_data : option bytes) (recovery_key : option cipher_key)
    (identifier : option bytes) : M gen_result :=
  match info, recovery_data, recovery_key, identifier with
  | Some i, Some d, Some rk, Some id =>
      keys <-= ctx_gen_import_recovery (Some d) (Some rk) ;;
      g <-- mtry (ctx_gen_with_root_keys (Some i) (Some keys) (Some id)) ;;
      match g with
      | None => mres UB
      | Some r =>
          k <-~ cipher_key_copy (Some rk) ;;
          mret {| gr_ctx := gr_ctx r; gr_recovery_key := k; gr_root_keys := gr_root_keys r |}
      end
  | _, _, _, _ => mres Null
  end.
(* wickr_ctx.c:102-125 *)
Definition ctx_gen_with_passphrase (info : option dev_info) (exported_recovery_key passphrase recovery_data identifier : option bytes) : M gen_result :=
  match info, exported_recovery_key, passphrase, recovery_data, identifier with
  | Some i, Some e, Some p, Some d, Some id =>
      bytes <-= kdf_decipher P (Some e) (Some p) ;;
      recovery_key <-= cipher_key_from_buffer (Some bytes) ;;
      ctx_gen_with_recovery (Some i) (Some d) (Some recovery_key) (Some id)
  | _, _, _, _, _ => mres Null
  end.
(* wickr_ctx.c:277-293 *)
Definition export_recovery_key_passphrase (r : option gen_result) (passphrase : option bytes) : M bytes :=
  match r, passphrase with
  | Some g, Some p =>
      buffer <-~ cipher_key_serialize (Some (gr_recovery_key g)) ;;
      kdf_cipher P KDF_SCRYPT_2_17 default_cipher (Some buffer) (Some p)
  | _, _ => mres Null
  end.
(* wickr_ctx.c:295-311 *)
Definition import_recovery_key_passphrase (exported passphrase : option bytes) : res cipher_key :=
  match exported, passphrase with
  | Some e, Some p =>
      decoded <- kdf_decipher P (Some e) (Some p) ;;
      cipher_key_from_buffer (Some decoded)
  | _, _ => Null
  end.
(* wickr_ctx.c:314-330 *)
Definition make_recovery (r : option gen_result) : M bytes :=
  match r with
  | Some g =>
      export_result <-- root_keys_export P (Some (gr_root_keys g)) (Some (gr_recovery_key g)) ;;
      mlift (cipher_result_serialize (Some export_result))
  | None => mres Null
  end.
(* wickr_ctx.c:332-366 *)
Definition gen_result_copy (source : option gen_result) : res gen_result :=
  match source with
  | None => Null
  | Some s =>
      c <- ctx_copy (Some (gr_ctx s)) ;;
      k <~ cipher_key_copy (Some (gr_recovery_key s)) ;;
      rk <~ root_keys_copy (Some (gr_root_keys s)) ;;
      lift (gen_result_create (Some c) (Some k) (Some rk))
  end.

(* wickr_ctx.c:520-548 *)
Definition ctx_create_from_proto (info : option dev_info) (m : option pb_ctx) : res ctx :=
  match m, info with
  | Some x, Some i =>
      match px_chain x, px_storage x with
      | Some c, Some s =>
          ch <- chain_create_from_proto P (Some c) ;;
          st <- storage_keys_create_from_proto (Some s) ;;
          lift (ctx_create (Some i) (Some ch) (Some st))
      | _, _ => Null
      end
  | _, _ => Null
  end.
(* wickr_ctx.c:576-591 *)
Definition ctx_create_from_buffer (info : option dev_info) (buffer : option bytes) : res ctx :=
  match info, buffer with
  | Some i, Some b => ctx_create_from_proto (Some i) (pb_ctx_unpack b)
  | _, _ => Null
  end.
(* wickr_ctx.c:593-609 *)
Definition ctx_export (c : option ctx) (passphrase : option bytes) : M bytes :=
  match c, passphrase with
  | Some x, Some p =>
      ser <-~ ctx_serialize (Some x) ;;
      kdf_cipher P KDF_SCRYPT_2_17 default_cipher (Some ser) (Some p)
  | _, _ => mres Null
  end.
(* wickr_ctx.c:611-630 *)
Definition ctx_import (info : option dev_info) (exported passphrase : option bytes) : res ctx :=
  match info, exported, passphrase with
  | Some i, Some e, Some p =>
      decoded <- kdf_decipher P (Some e) (Some p) ;;
      ctx_create_from_buffer (Some i) (Some decoded)
  | _, _, _ => Null
  end.
(* wickr_ctx.c:633-649 *)
Definition ctx_export_storage_keys (c : option ctx) (passphrase : option bytes) : M bytes :=
  match c, passphrase with
  | Some x, Some p =>
      ser <-= storage_keys_serialize (Some (cx_storage x)) ;;
      kdf_cipher P KDF_SCRYPT_2_17 default_cipher (Some ser) (Some p)
  | _, _ => mres Null
  end.
(* wickr_ctx.c:651-667 *)
Definition ctx_import_storage_keys (exported passphrase : option bytes) : res storage_keys :=
  match exported, passphrase with
  | Some e, Some p =>
      decoded <- kdf_decipher P (Some e) (Some p) ;;
      storage_keys_create_from_buffer (Some decoded)
  | _, _ => Null
  end.

(* wickr_ctx.c:670-705 *)
Definition ctx_cipher_local (c : option ctx) (plaintext : option bytes) : M cipher_result :=
  match c, plaintext with
  | Some x, Some p => aes256_encrypt P (Some p) None (Some (sk_local (cx_storage x))) None
  | _, _ => mres Null
  end.
Definition ctx_decipher_local (c : option ctx) (r : option cipher_result) : res bytes :=
  match c, r with
  | Some x, Some t => aes256_decrypt P (Some t) None (Some (sk_local (cx_storage x))) true
  | _, _ => Null
  end.
Definition ctx_cipher_remote (c : option ctx) (plaintext : option bytes) : M cipher_result :=
  match c, plaintext with
  | Some x, Some p => aes256_encrypt P (Some p) None (Some (sk_remote (cx_storage x))) None
  | _, _ => mres Null
  end.
Definition ctx_decipher_remote (c : option ctx) (r : option cipher_result) : res bytes :=
  match c, r with
  | Some x, Some t => aes256_decrypt P (Some t) None (Some (sk_remote (cx_storage x))) true
  | _, _ => Null
  end.
(* wickr_ctx.c:708-715 *)
Definition ctx_ephemeral_keypair_gen (c : option ctx) (key_id : N) : M keypair :=
  match c with
  | None => mres Null
  | Some x => keypair_generate_identity P key_id (Some (ch_node (cx_chain x)))
  end.
(* wickr_ctx.c:751-786; a NULL packet makes no encoder result *)
Definition ctx_encode_packet (c : option ctx) (p : option payload) (nodes : option (list (option node))) : M encoder_result :=
  match c, p, nodes with
  | Some x, Some pl, Some ns =>
      payload_key <-- cipher_key_random P default_cipher ;;
      exchange_key <-- ec_rand_key P P521 ;;
      generated <-- packet_create_from_components P (Some (cx_header_key x)) (Some payload_key) (Some exchange_key) (Some pl) (Some ns)
                      (Some (cx_chain x)) (cx_version x) ;;
      mlift (encoder_result_create (Some payload_key) (Some generated))
  | _, _, _ => mres Null
  end.
(* wickr_ctx.c:788-828 *)
Definition ctx_read_packet (packet_buffer node_search_id : option bytes) (sender : option chain) : res ctx_packet :=
  match packet_buffer with
  | None => Null
  | Some b =>
      p <- packet_create_from_buffer (Some b) ;;
      result <- parse_result_from_packet P gen_header_key (Some p) node_search_id sender ;;
      chain_copy <~ chain_copy sender ;;
      lift (ctx_packet_create (Some p) (Some chain_copy) (Some result))
  end.
(* wickr_ctx.c:830-843; a NULL context is dereferenced *)
Definition ctx_stateless_parse_packet (node_search_id packet_buffer : option bytes) (sender : option chain) : res ctx_packet :=
  ctx_read_packet packet_buffer node_search_id sender.
Definition ctx_parse_packet (c : option ctx) (packet_buffer : option bytes) (sender : option chain) : res ctx_packet :=
  match c with
  | None => UB
  | Some x => ctx_read_packet packet_buffer (Some (id_identifier (ch_node (cx_chain x)))) sender
  end.
Definition ctx_parse_packet_no_decode (c : option ctx) (packet_buffer : option bytes) (sender : option chain) : res ctx_packet :=
  match c with
  | None => UB
  | Some _ => ctx_read_packet packet_buffer None sender
  end.
(* wickr_ctx.c:845-852 *)
Definition ctx_decode_packet (c : option ctx) (p : option ctx_packet) (keypair : option ec_key) : res decode_result :=
  match c, p with
  | Some x, Some q =>
      decode_result_from_parse_result P (cp_packet q) (Some (cp_parse q)) (di_msg_proto_id (cx_dev x)) keypair (cx_chain x) (Some (cp_sender q))
  | _, _ => Null
  end.
End Ctx.
