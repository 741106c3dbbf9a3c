(* Model of key_exchange.c and of the key exchange part of protocol.c:11-237 (src/wickrcrypto/src).
   Simplifications: the engine pointer is never NULL; an exchange array is the list of its items
   (None = a slot that was never set; Model/Array.v models the container itself). *)
From Verif.Base Require Import Bytes Monad.
From Verif.Model Require Import Buffer Cipher Ecdsa Kdf Prims Engine Proto Identity Node EcdhCipher.
Local Open Scope N_scope.
Local Open Scope res_scope.
Local Open Scope m_scope.

(* key_exchange.h *)
Record key_exchange := { kx_id : bytes; kx_key_id : N; kx_text : cipher_result }.
Record exchange_set := { xs_sender : ec_key; xs_items : list (option key_exchange) }.

(* key_exchange.c:10-24 *)
Definition key_exchange_create (id : option bytes) (key_id : N) (text : option cipher_result) : option key_exchange :=
  match id, text with
  | Some i, Some t => Some {| kx_id := i; kx_key_id := key_id; kx_text := t |}
  | _, _ => None
  end.
(* key_exchange.c:26-53 *)
Definition key_exchange_copy (source : option key_exchange) : option key_exchange :=
  match source with
  | None => None
  | Some s =>
      match cipher_result_copy (Some (kx_text s)), buffer_copy (Some (kx_id s)) with
      | Some t, Some i => key_exchange_create (Some i) (kx_key_id s) (Some t)
      | _, _ => None
      end
  end.
(* key_exchange.c:146-151 with array.c:15-48: whether the array can be made *)
Definition exchange_array_ok (count : N) : bool := (count =? 0) || size_ok ((8 * count) mod two64).
(* key_exchange.c:165-168 with array.c:119-137: unset slots stay unset, an item that cannot be copied fails *)
Fixpoint exchange_items_copy (l : list (option key_exchange)) : option (list (option key_exchange)) :=
  match l with
  | [] => Some []
  | None :: r => match exchange_items_copy r with Some r' => Some (None :: r') | None => None end
  | Some x :: r =>
      match key_exchange_copy (Some x) with
      | None => None
      | Some y => match exchange_items_copy r with Some r' => Some (Some y :: r') | None => None end
      end
  end.
(* key_exchange.c:178-194 *)
Definition exchange_set_create (sender : option ec_key) (items : option (list (option key_exchange))) : option exchange_set :=
  match sender, items with
  | Some s, Some l => Some {| xs_sender := s; xs_items := l |}
  | _, _ => None
  end.
(* key_exchange.c:196-211; an unset slot is dereferenced *)
Fixpoint exchange_find (l : list (option key_exchange)) (identifier : bytes) : res key_exchange :=
  match l with
  | [] => Null
  | None :: _ => UB
  | Some x :: r => if buffer_is_equal (Some identifier) (Some (kx_id x)) then lift (key_exchange_copy (Some x)) else exchange_find r identifier
  end.
Definition exchange_set_find (s : option exchange_set) (identifier : option bytes) : res key_exchange :=
  match s, identifier with
  | Some x, Some i => exchange_find (xs_items x) i
  | _, _ => Null
  end.
(* key_exchange.c:213-240 *)
Definition exchange_set_copy (source : option exchange_set) : option exchange_set :=
  match source with
  | None => None
  | Some s =>
      match ec_key_copy (Some (xs_sender s)), exchange_items_copy (xs_items s) with
      | Some k, Some l => exchange_set_create (Some k) (Some l)
      | _, _ => None
      end
  end.

(* src/protobuf/key_exchange.proto *)
Record pb_exchange := { px_id : bytes; px_key_id : N; px_data : bytes }.
Record pb_exchange_set := { py_sender : bytes; py_exchanges : list pb_exchange }.
Definition pb_exchange_pack (m : pb_exchange) : bytes := (f_len 1 (px_id m) ++ f_var 2 (px_key_id m) ++ f_len 3 (px_data m))%list.
Definition pb_exchange_unpack (b : bytes) : option pb_exchange :=
  match scan b with
  | None => None
  | Some fs =>
      match get_bytes 1 fs None, get_u64 2 fs, get_bytes 3 fs None with
      | Some (Some i), Some (Some k), Some (Some d) => Some {| px_id := i; px_key_id := k; px_data := d |}
      | _, _, _ => None
      end
  end.
Definition pb_exchange_set_pack (m : pb_exchange_set) : bytes :=
  (f_len 1 (py_sender m) ++ flat_map (fun x => f_len 2 (pb_exchange_pack x)) (py_exchanges m))%list.
Definition pb_exchange_set_unpack (b : bytes) : option pb_exchange_set :=
  match scan b with
  | None => None
  | Some fs =>
      match get_bytes 1 fs None, get_rep 2 pb_exchange_unpack fs with
      | Some (Some s), Some l => Some {| py_sender := s; py_exchanges := l |}
      | _, _ => None
      end
  end.

(* key_exchange.c:77-111 *)
Definition key_exchange_to_proto (x : option key_exchange) : option pb_exchange :=
  match x with
  | None => None
  | Some e => match cipher_result_serialize (Some (kx_text e)) with
              | None => None
              | Some d => Some {| px_id := kx_id e; px_key_id := kx_key_id e; px_data := d |}
              end
  end.
(* key_exchange.c:113-144; protobuf-c gives an empty byte string a NULL pointer *)
Definition key_exchange_create_with_proto (m : pb_exchange) : res key_exchange :=
  if (blen (px_data m) =? 0) || (blen (px_id m) =? 0) then Null
  else
    text <- cipher_result_from_buffer (buffer_create (px_data m)) ;;
    id <~ buffer_create (px_id m) ;;
    lift (key_exchange_create (Some id) (px_key_id m) (Some text)).
(* key_exchange.c:330-376, loop *)
Fixpoint exchange_items_to_proto (l : list (option key_exchange)) : option (list pb_exchange) :=
  match l with
  | [] => Some []
  | x :: r => match key_exchange_to_proto x with
              | None => None
              | Some p => match exchange_items_to_proto r with Some r' => Some (p :: r') | None => None end
              end
  end.
(* key_exchange.c:330-376; wickr_alloc_zero(0) is NULL *)
Definition exchange_set_to_proto (s : exchange_set) : option pb_exchange_set :=
  match xs_items s with
  | [] => None
  | _ => match exchange_items_to_proto (xs_items s) with
         | None => None
         | Some l => Some {| py_sender := ek_pub (xs_sender s); py_exchanges := l |}
         end
  end.
(* key_exchange.c:378-403 *)
Definition exchange_set_serialize (s : option exchange_set) : option bytes :=
  match s with
  | None => None
  | Some x => match exchange_set_to_proto x with
              | None => None
              | Some m => pack_buffer (pb_exchange_set_pack m)
              end
  end.
(* key_exchange.c:294-311, loop *)
Fixpoint exchange_items_from_proto (l : list pb_exchange) : res (list (option key_exchange)) :=
  match l with
  | [] => Val []
  | m :: r =>
      x <- key_exchange_create_with_proto m ;;
      r' <- exchange_items_from_proto r ;;
      Val (Some x :: r')
  end.

Definition INT32_MAX : N := 2147483647.

Section Exchange.
Context (P : prims).
(* key_exchange.c:278-328 *)
Definition exchange_set_create_with_proto (m : pb_exchange_set) : res exchange_set :=
  let n := N.of_nat (length (py_exchanges m)) in
  if (n =? 0) || (INT32_MAX <? n) || (blen (py_sender m) =? 0) then Null
  else if negb (exchange_array_ok n) then Null
  else
    items <- exchange_items_from_proto (py_exchanges m) ;;
    pubkey <~ ec_key_import P (Some (py_sender m)) false ;;
    lift (exchange_set_create (Some pubkey) (Some items)).
(* key_exchange.c:405-424 *)
Definition exchange_set_create_from_buffer (b : option bytes) : res exchange_set :=
  match b with
  | None => Null
  | Some x => m <~ pb_exchange_set_unpack x ;; exchange_set_create_with_proto m
  end.
(* key_exchange.c:426-444 *)
Definition exchange_set_encrypt (s : option exchange_set) (header_key : option cipher_key) : M cipher_result :=
  match s, header_key with
  | Some x, Some k =>
      ser <-~ exchange_set_serialize (Some x) ;;
      aes256_encrypt P (Some ser) None (Some k) None
  | _, _ => mres Null
  end.
(* key_exchange.c:446-464 *)
Definition exchange_set_create_from_cipher (r : option cipher_result) (header_key : option cipher_key) : res exchange_set :=
  match r, header_key with
  | Some c, Some k =>
      d <- aes256_decrypt P (Some c) None (Some k) true ;;
      exchange_set_create_from_buffer (Some d)
  | _, _ => Null
  end.

(* protocol.c:11-32 *)
Definition exchange_kdf_info (sender : option chain) (receiver : option node) (version : N) : option bytes :=
  match sender, receiver with
  | Some s, Some r =>
      if version =? 2 then buffer_copy (Some (nd_dev_id r))
      else if (version =? 3) || (version =? 4)
      then buffer_concat_multi [Some (ek_pub (id_key (ch_root s))); Some (ek_pub (id_key (ch_root (nd_chain r)))); Some (nd_dev_id r)]
      else None
  | _, _ => None
  end.
(* protocol.c:34-81 *)
Definition exchange_kdf_meta (sender : option chain) (receiver : option node) (psk : option bytes) (version : N) : option kdf_meta :=
  match sender, receiver with
  | Some s, Some r =>
      match nd_keypair r with
      | None => None
      | Some _ =>
          match (if (version =? 2) || (version =? 3) then Some KDF_HKDF_SHA256
                 else if version =? 4 then Some KDF_HKDF_SHA512 else None) with
          | None => None
          | Some algo =>
              match exchange_kdf_info (Some s) (Some r) version with
              | None => None
              | Some info =>
                  match psk, buffer_copy psk with
                  | Some _, None => None
                  | _, psk_copy => kdf_meta_create algo psk_copy (Some info)
                  end
              end
          end
      end
  | _, _ => None
  end.
(* protocol.c:83-139 *)
Definition exchange_create_with_data (sender : option chain) (receiver : option node) (packet_exchange_key : option ec_key)
    (data : option bytes) (exchange_cipher : cipher) (psk : option bytes) (version : N) : M key_exchange :=
  match sender, receiver, packet_exchange_key with
  | Some s, Some r, Some k =>
      match nd_keypair r with
      | None => mres Null
      | Some kp =>
          copy_exchange_key <-~ ec_key_copy (Some k) ;;
          ctx <-~ ecdh_ctx_create_key (Some copy_exchange_key) exchange_cipher ;;
          params <-~ exchange_kdf_meta (Some s) (Some r) psk version ;;
          text <-- ecdh_cipher P ctx data (Some (kp_key kp)) (Some params) ;;
          id <-~ buffer_copy (Some (id_identifier (ch_node (nd_chain r)))) ;;
          mlift (key_exchange_create (Some id) (kp_identifier kp) (Some text))
      end
  | _, _, _ => mres Null
  end.
(* protocol.c:141-166 *)
Definition exchange_create_with_packet_key (sender : option chain) (receiver : option node) (packet_exchange_key : option ec_key)
    (packet_key : option cipher_key) (psk : option bytes) (version : N) : M key_exchange :=
  match sender, receiver, packet_exchange_key, packet_key with
  | Some s, Some r, Some k, Some pk =>
      ser <-~ cipher_key_serialize (Some pk) ;;
      exchange_create_with_data (Some s) (Some r) (Some k) (Some ser) (exchange_cipher_matching_cipher (ck_cipher pk)) psk version
  | _, _, _, _ => mres Null
  end.
(* protocol.c:193-237 *)
Definition exchange_derive_data (sender : option chain) (receiver : option node) (packet_exchange_key : option ec_key)
    (x : option key_exchange) (psk : option bytes) (version : N) : res bytes :=
  match sender, receiver, x with
  | Some s, Some r, Some e =>
      match nd_keypair r with
      | None => Null
      | Some kp =>
          local <~ ec_key_copy (Some (kp_key kp)) ;;
          ctx <~ ecdh_ctx_create_key (Some local) (cr_cipher (kx_text e)) ;;
          params <~ exchange_kdf_meta (Some s) (Some r) psk version ;;
          ecdh_decipher P ctx (Some (kx_text e)) packet_exchange_key (Some params)
      end
  | _, _, _ => Null
  end.
(* protocol.c:169-191 *)
Definition exchange_derive_packet_key (sender : option chain) (receiver : option node) (packet_exchange_key : option ec_key)
    (x : option key_exchange) (psk : option bytes) (version : N) : res cipher_key :=
  match sender, receiver, x with
  | Some s, Some r, Some e =>
      b <- rtry (exchange_derive_data (Some s) (Some r) packet_exchange_key (Some e) psk version) ;;
      cipher_key_from_buffer b
  | _, _, _ => Null
  end.
End Exchange.
