(* Model of transport_root_key.c, transport_root_key_priv.c, transport_handshake.c and
   transport_handshake_priv.c (src/wickrcrypto/src).
   Simplifications: the engine is the default one (curve P-521, cipher AES-256-GCM); the handshake
   pointer is not NULL; leaks are not modelled; the identity callback is reported to the caller
   of the processing function, who answers with handshake_verify_identity. *)
From Verif.Base Require Import Bytes Monad.
From Verif.Model Require Import Buffer Cipher Ecdsa Kdf Prims Engine Identity Proto Stream TransportPacket EcdhCipher.
Local Open Scope N_scope.
Local Open Scope res_scope.
Local Open Scope m_scope.

(* transport_root_key.h *)
Record root_key := { rk_cipher : cipher; rk_secret : bytes; rk_send : N; rk_recv : N }.
(* transport_root_key.c:29-50 *)
Definition root_key_create (secret : option bytes) (c : cipher) (send recv : N) : option root_key :=
  match secret with
  | None => None
  | Some s => if negb (blen s =? key_len c) then None
              else Some {| rk_cipher := c; rk_secret := s; rk_send := send; rk_recv := recv |}
  end.
(* transport_root_key.c:52-74 *)
Definition root_key_copy (k : option root_key) : option root_key :=
  match k with
  | None => None
  | Some x => match buffer_copy (Some (rk_secret x)) with
              | None => None
              | Some s => root_key_create (Some s) (rk_cipher x) (rk_send x) (rk_recv x)
              end
  end.

(* src/protobuf/stream.proto: TransportRootKey, HandshakeV1ResponseData, HandshakeV1 *)
Record pb_root_key := { prk_secret : option bytes; prk_cipher : option N; prk_send : option N; prk_recv : option N }.
Definition pb_root_key_pack (m : pb_root_key) : bytes :=
  (f_len_opt 1 (prk_secret m) ++ f_var_opt 2 (prk_cipher m) ++ f_var_opt 3 (prk_send m) ++ f_var_opt 4 (prk_recv m))%list.
Definition pb_root_key_unpack (b : bytes) : option pb_root_key :=
  match scan b with
  | None => None
  | Some fs =>
      match get_bytes 1 fs None, get_u32 2 fs, get_u32 3 fs, get_u32 4 fs with
      | Some s, Some c, Some x, Some y => Some {| prk_secret := s; prk_cipher := c; prk_send := x; prk_recv := y |}
      | _, _, _, _ => None
      end
  end.
Definition pb_root_key_merge (e l : pb_root_key) : pb_root_key :=
  {| prk_secret := merge_bytes (prk_secret e) (prk_secret l); prk_cipher := merge_opt (prk_cipher e) (prk_cipher l);
     prk_send := merge_opt (prk_send e) (prk_send l); prk_recv := merge_opt (prk_recv e) (prk_recv l) |}.
Definition pb_response_data_pack (m : option pb_root_key) : bytes := f_len_opt 1 (option_map pb_root_key_pack m).
Definition pb_response_data_unpack (b : bytes) : option (option pb_root_key) :=
  match scan b with None => None | Some fs => get_msg 1 pb_root_key_unpack pb_root_key_merge fs None end.

Record pb_seed := { ps_chain : option pb_chain; ps_pubkey : option bytes; ps_required : option bool }.
Record pb_response := { pr_pubkey : option bytes; pr_data : option bytes; pr_chain : option pb_chain }.
Definition pb_seed_pack (m : pb_seed) : bytes :=
  (f_len_opt 2 (option_map pb_chain_pack (ps_chain m)) ++ f_len_opt 3 (ps_pubkey m) ++ f_var_opt 4 (option_map bool_var (ps_required m)))%list.
Definition pb_seed_unpack (b : bytes) : option pb_seed :=
  match scan b with
  | None => None
  | Some fs =>
      match get_msg 2 pb_chain_unpack pb_chain_merge fs None, get_bytes 3 fs None, get_bool 4 fs with
      | Some c, Some k, Some r => Some {| ps_chain := c; ps_pubkey := k; ps_required := r |}
      | _, _, _ => None
      end
  end.
Definition pb_response_pack (m : pb_response) : bytes :=
  (f_len_opt 2 (pr_pubkey m) ++ f_len_opt 3 (pr_data m) ++ f_len_opt 4 (option_map pb_chain_pack (pr_chain m)))%list.
Definition pb_response_unpack (b : bytes) : option pb_response :=
  match scan b with
  | None => None
  | Some fs =>
      match get_bytes 2 fs None, get_bytes 3 fs None, get_msg 4 pb_chain_unpack pb_chain_merge fs None with
      | Some k, Some d, Some c => Some {| pr_pubkey := k; pr_data := d; pr_chain := c |}
      | _, _, _ => None
      end
  end.
(* the oneof: which member of the union is set *)
Inductive pb_handshake := PNone | PSeed (s : pb_seed) | PResponse (r : pb_response).
Definition pb_handshake_pack (m : pb_handshake) : bytes :=
  match m with
  | PNone => []
  | PSeed s => f_len 2 (pb_seed_pack s)
  | PResponse r => f_len 3 (pb_response_pack r)
  end.
(* protobuf-c.c parse_oneof_member: an earlier member is freed, the last one stays *)
Fixpoint get_oneof (fs : list field) (acc : pb_handshake) : option pb_handshake :=
  match fs with
  | [] => Some acc
  | (t, w) :: fs' =>
      if t =? 2 then
        match w with
        | WLen b => match pb_seed_unpack b with Some s => get_oneof fs' (PSeed s) | None => None end
        | _ => None
        end
      else if t =? 3 then
        match w with
        | WLen b => match pb_response_unpack b with Some r => get_oneof fs' (PResponse r) | None => None end
        | _ => None
        end
      else get_oneof fs' acc
  end.
Definition pb_handshake_unpack (b : bytes) : option pb_handshake :=
  match scan b with None => None | Some fs => get_oneof fs PNone end.

(* transport_root_key_priv.c:7-36 *)
Definition root_key_to_proto (k : root_key) : pb_root_key :=
  {| prk_secret := Some (rk_secret k); prk_cipher := Some (cipher_id (rk_cipher k)); prk_send := Some (rk_send k); prk_recv := Some (rk_recv k) |}.
(* transport_root_key_priv.c:38-67; wickr_cipher_find takes a uint8_t *)
Definition root_key_from_proto (m : pb_root_key) : option root_key :=
  match prk_secret m, prk_cipher m, prk_send m, prk_recv m with
  | Some s, Some c, Some x, Some y =>
      match buffer_create s, cipher_find (c mod 256) with
      | Some secret, Some cph => root_key_create (Some secret) cph x y
      | _, _ => None
      end
  | _, _, _, _ => None
  end.

(* transport_handshake.h:60-67 *)
Inductive hstatus := H_UNKNOWN | H_IN_PROGRESS | H_PENDING_VERIFICATION | H_PENDING_FINALIZATION | H_COMPLETE | H_FAILED.
Record handshake := {
  hs_status : hstatus; hs_initiator : bool; hs_local : chain; hs_remote : option chain; hs_evo : N;
  hs_packet0 : option bytes; hs_packet1 : option bytes;   (* packet_list *)
  hs_ephemeral : option ec_key; hs_root : option root_key; hs_pending : option tpacket }.
Record handshake_res := { hr_local : stream_key; hr_remote : stream_key }.
(* transport_handshake.c:38-61 *)
Definition handshake_res_copy (r : option handshake_res) : option handshake_res :=
  match r with
  | None => None
  | Some x => match stream_key_copy (Some (hr_local x)), stream_key_copy (Some (hr_remote x)) with
              | Some l, Some m => Some {| hr_local := l; hr_remote := m |}
              | _, _ => None
              end
  end.

Definition set_hstatus (s : hstatus) (h : handshake) : handshake :=
  {| hs_status := s; hs_initiator := hs_initiator h; hs_local := hs_local h; hs_remote := hs_remote h; hs_evo := hs_evo h;
     hs_packet0 := hs_packet0 h; hs_packet1 := hs_packet1 h; hs_ephemeral := hs_ephemeral h; hs_root := hs_root h; hs_pending := hs_pending h |}.
Definition set_remote (c : option chain) (h : handshake) : handshake :=
  {| hs_status := hs_status h; hs_initiator := hs_initiator h; hs_local := hs_local h; hs_remote := c; hs_evo := hs_evo h;
     hs_packet0 := hs_packet0 h; hs_packet1 := hs_packet1 h; hs_ephemeral := hs_ephemeral h; hs_root := hs_root h; hs_pending := hs_pending h |}.
Definition set_root (k : option root_key) (h : handshake) : handshake :=
  {| hs_status := hs_status h; hs_initiator := hs_initiator h; hs_local := hs_local h; hs_remote := hs_remote h; hs_evo := hs_evo h;
     hs_packet0 := hs_packet0 h; hs_packet1 := hs_packet1 h; hs_ephemeral := hs_ephemeral h; hs_root := k; hs_pending := hs_pending h |}.
Definition set_pending (p : option tpacket) (h : handshake) : handshake :=
  {| hs_status := hs_status h; hs_initiator := hs_initiator h; hs_local := hs_local h; hs_remote := hs_remote h; hs_evo := hs_evo h;
     hs_packet0 := hs_packet0 h; hs_packet1 := hs_packet1 h; hs_ephemeral := hs_ephemeral h; hs_root := hs_root h; hs_pending := p |}.
Definition set_ephemeral (k : option ec_key) (h : handshake) : handshake :=
  {| hs_status := hs_status h; hs_initiator := hs_initiator h; hs_local := hs_local h; hs_remote := hs_remote h; hs_evo := hs_evo h;
     hs_packet0 := hs_packet0 h; hs_packet1 := hs_packet1 h; hs_ephemeral := k; hs_root := hs_root h; hs_pending := hs_pending h |}.
Definition set_initiator (b : bool) (h : handshake) : handshake :=
  {| hs_status := hs_status h; hs_initiator := b; hs_local := hs_local h; hs_remote := hs_remote h; hs_evo := hs_evo h;
     hs_packet0 := hs_packet0 h; hs_packet1 := hs_packet1 h; hs_ephemeral := hs_ephemeral h; hs_root := hs_root h; hs_pending := hs_pending h |}.
(* wickr_array_set_item(handshake->packet_list, n, b, true): a copy that fails leaves the item *)
Definition record_item (old b : option bytes) : option bytes :=
  match b with None => None | Some _ => match buffer_copy b with Some c => Some c | None => old end end.
Definition record_packet (n : N) (b : option bytes) (h : handshake) : handshake :=
  {| hs_status := hs_status h; hs_initiator := hs_initiator h; hs_local := hs_local h; hs_remote := hs_remote h; hs_evo := hs_evo h;
     hs_packet0 := if n =? 0 then record_item (hs_packet0 h) b else hs_packet0 h;
     hs_packet1 := if n =? 1 then record_item (hs_packet1 h) b else hs_packet1 h;
     hs_ephemeral := hs_ephemeral h; hs_root := hs_root h; hs_pending := hs_pending h |}.

(* transport_handshake.c:86-143 *)
Definition handshake_create (local remote : option chain) (evo : N) : option handshake :=
  match local with
  | None => None
  | Some l =>
      if evo =? 0 then None
      else Some {| hs_status := H_UNKNOWN; hs_initiator := false; hs_local := l; hs_remote := remote; hs_evo := evo;
                   hs_packet0 := None; hs_packet1 := None; hs_ephemeral := None; hs_root := None; hs_pending := None |}
  end.
(* transport_handshake.c:145-211 *)
Definition handshake_copy (x : option handshake) : option handshake :=
  match x with
  | None => None
  | Some h =>
      let opt_copy {A} (f : option A -> option A) (o : option A) : option (option A) :=
        match o with None => Some None | Some _ => match f o with Some c => Some (Some c) | None => None end end in
      match chain_copy (Some (hs_local h)), opt_copy chain_copy (hs_remote h),
            opt_copy buffer_copy (hs_packet0 h), opt_copy buffer_copy (hs_packet1 h),
            opt_copy root_key_copy (hs_root h), opt_copy tpacket_copy (hs_pending h), opt_copy ec_key_copy (hs_ephemeral h) with
      | Some l, Some r, Some p0, Some p1, Some k, Some p, Some e =>
          if hs_evo h =? 0 then None
          else Some {| hs_status := hs_status h; hs_initiator := hs_initiator h; hs_local := l; hs_remote := r; hs_evo := hs_evo h;
                       hs_packet0 := p0; hs_packet1 := p1; hs_ephemeral := e; hs_root := k; hs_pending := p |}
      | _, _, _, _, _, _, _ => None
      end
  end.

(* transport_handshake_priv.c: wickr_proto_handshake_seed_create *)
Definition seed_create (c : chain) (pub : bytes) (needs_remote_identity : bool) : option pb_seed :=
  match chain_build_proto c false with
  | None => None
  | Some m => Some {| ps_chain := Some m; ps_pubkey := Some pub; ps_required := Some needs_remote_identity |}
  end.
(* transport_handshake_priv.c: wickr_proto_handshake_response_create *)
Definition response_create (pub data : bytes) (c : option chain) : option pb_response :=
  match c with
  | None => Some {| pr_pubkey := Some pub; pr_data := Some data; pr_chain := None |}
  | Some x => match chain_build_proto x false with
              | None => None
              | Some m => Some {| pr_pubkey := Some pub; pr_data := Some data; pr_chain := Some m |}
              end
  end.
(* transport_handshake_priv.c: wickr_proto_handshake_to_packet *)
Definition handshake_to_packet (m : pb_handshake) : option tpacket :=
  match pack_buffer (pb_handshake_pack m) with
  | None => None
  | Some b => tpacket_create (meta_handshake 1 MAC_NONE) (Some b)
  end.
(* transport_handshake_priv.c: wickr_proto_handshake_from_packet *)
Definition handshake_from_packet (p : tpacket) : option pb_handshake :=
  match tm_body (tp_meta p) with
  | Handshake _ _ => pb_handshake_unpack (tp_body p)
  | Ciphertext _ => None
  end.
(* transport_handshake.c:699: the protocol_version member of the union, whatever the body type;
   of a data packet it is the low byte of the sequence number *)
Definition union_version (b : body_meta) : N := match b with Handshake v _ => v mod 256 | Ciphertext s => s mod 256 end.

(* the results of the functions below: the handshake after the call, and the returned packet *)
Definition hfail (h : handshake) : M (handshake * option tpacket) := mret (set_hstatus H_FAILED h, None).
(* "if the call returns NULL, the status becomes FAILED and NULL is returned" *)
Definition htry {A} (m : M A) (h : handshake) (k : A -> M (handshake * option tpacket)) : M (handshake * option tpacket) :=
  o <-- mtry m ;;
  match o with Some a => k a | None => hfail h end.
Notation "x <-- m 'orfail' h ;; k" := (htry m h (fun x => k)) (at level 61, m at next level, h at next level, right associativity) : m_scope.

Section Handshake.
Context (P : prims).

(* transport_root_key.c:5-27 *)
Definition root_key_create_random (c : cipher) (send recv : N) : M root_key :=
  secret <-- crypto_random P (key_len c) ;;
  mlift (root_key_create (Some secret) c send recv).
(* transport_root_key.c:87-130 *)
Definition root_key_to_stream_key (k : root_key) (salt stream_id : bytes) (d : direction) : res stream_key :=
  raw <- perform_kdf_meta P (Some {| km_algo := KDF_HKDF_SHA512; km_salt := Some salt; km_info := Some stream_id |}) (Some (rk_secret k)) ;;
  guard (blen (kr_hash raw) =? key_len (rk_cipher k) * 2) ;;
  cipher_key_data <~ buffer_copy_section (kr_hash raw) 0 (key_len (rk_cipher k)) ;;
  ck <~ cipher_key_create (rk_cipher k) (Some cipher_key_data) ;;
  evo_key <~ buffer_copy_section (kr_hash raw) (key_len (rk_cipher k)) (key_len (rk_cipher k)) ;;
  lift (stream_key_create (Some ck) (Some evo_key) (match d with ENCODE => rk_send k | DECODE => rk_recv k end)).

(* transport_handshake.c:230-246 *)
Definition build_signed_packet (h : handshake) (m : pb_handshake) (num : N) : M (handshake * option tpacket) :=
  pkt <-- mlift (handshake_to_packet m) orfail h ;;
  s <-- tpacket_sign P pkt (hs_local h) ;;
  match s with
  | (true, p) => mret (record_packet num (tp_network p) h, Some p)
  | (false, _) => hfail h
  end.
(* transport_handshake.c:248-300 *)
Definition handshake_start (h0 : handshake) : M (handshake * option tpacket) :=
  match hs_status h0 with
  | H_UNKNOWN =>
      let h := set_hstatus H_IN_PROGRESS (set_initiator true h0) in
      k <-- ec_rand_key P P521 orfail h ;;
      let h := set_ephemeral (Some k) h in
      seed <-- mlift (seed_create (hs_local h) (ek_pub k) (match hs_remote h with None => true | Some _ => false end)) orfail h ;;
      build_signed_packet h (PSeed seed) 0
  | _ => hfail h0
  end.
(* transport_handshake.c:302-357 *)
Definition handshake_kdf_meta (h : handshake) (local_ephemeral remote_ephemeral : ec_key) : option kdf_meta :=
  match chain_serialize (Some (hs_local h)), chain_serialize (hs_remote h) with
  | Some l, Some r =>
      let parts := if hs_initiator h then [Some l; Some r; Some (ek_pub local_ephemeral); Some (ek_pub remote_ephemeral)]
                   else [Some r; Some l; Some (ek_pub remote_ephemeral); Some (ek_pub local_ephemeral)] in
      match buffer_concat_multi parts with
      | None => None
      | Some info => match sha2 P (Some info) None SHA512 with
                     | None => None
                     | Some hashed => kdf_meta_create KDF_HKDF_SHA512 None (Some hashed)
                     end
      end
  | _, _ => None
  end.
(* transport_handshake.c:359-375 *)
Definition process_remote_identity (h : handshake) (pkt : tpacket) (m : option pb_chain) : res (bool * handshake) :=
  r <- (match hs_remote h with
        | Some c => Val (Some c, h)
        | None =>
            c <- rtry (chain_create_from_proto P m) ;;
            Val (c, set_hstatus H_PENDING_VERIFICATION (set_remote c h))
        end) ;;
  match r with
  | (None, h') => Val (false, h')
  | (Some c, h') =>
      let '(v, _, c') := tpacket_verify P pkt c in
      b <- v ;;
      Val (b, set_remote (Some c') h')
  end.
(* transport_handshake.c:377-504.  A seed in the place of the response is read through the wrong
   member of the union (lines 391-393 do not look at payload_case): undefined behaviour. *)
Definition process_response (h0 : handshake) (pkt : tpacket) : M (handshake * option tpacket) :=
  let h := record_packet 1 (tp_network pkt) h0 in
  data <-- mlift (handshake_from_packet pkt) orfail h ;;
  match data with
  | PNone => hfail h
  | PSeed _ => mres UB
  | PResponse r =>
      match pr_data r, pr_pubkey r with
      | Some enc, Some pub =>
          if (match hs_remote h, pr_chain r with None, None => true | _, _ => false end) then hfail h
          else
            encrypted_obj <-- mres (b <~ buffer_create enc ;; cipher_result_from_buffer (Some b)) orfail h ;;
            local_key <-- mlift (ec_key_copy (hs_ephemeral h)) orfail h ;;
            ctx <-- mlift (ecdh_ctx_create_key (Some local_key) (cr_cipher encrypted_obj)) orfail h ;;
            remote_ephemeral <-- mlift (match buffer_create pub with Some x => ec_key_import P (Some x) false | None => None end) orfail h ;;
            v <-= process_remote_identity h pkt (pr_chain r) ;;
            match v with
            | (false, h) => hfail h
            | (true, h) =>
                kdf <-- mlift (match hs_ephemeral h with Some e => handshake_kdf_meta h e remote_ephemeral | None => None end) orfail h ;;
                response_buffer <-- mres (ecdh_decipher P ctx (Some encrypted_obj) (Some remote_ephemeral) (Some kdf)) orfail h ;;
                response_data <-- mlift (pb_response_data_unpack response_buffer) orfail h ;;
                k <-- mlift (match response_data with Some m => root_key_from_proto m | None => None end) orfail h ;;
                let h := set_root (Some k) h in
                mret (match hs_status h with H_IN_PROGRESS => set_hstatus H_PENDING_FINALIZATION h | _ => h end, None)
            end
      | _, _ => hfail h
      end
  end.
(* transport_handshake.c:506-641.  A response in the place of the seed is read through the wrong
   member of the union (lines 514-515): undefined behaviour. *)
Definition process_initial (h0 : handshake) (pkt : tpacket) : M (handshake * option tpacket) :=
  let h := record_packet 0 (tp_network pkt) h0 in
  data <-- mlift (handshake_from_packet pkt) orfail h ;;
  match data with
  | PNone => hfail h
  | PResponse _ => mres UB
  | PSeed s =>
      match ps_pubkey s, ps_required s with
      | Some pub, Some required =>
          v <-= process_remote_identity h pkt (ps_chain s) ;;
          match v with
          | (false, h) => hfail h
          | (true, h) =>
              ephemeral <-- mlift (match buffer_create pub with Some x => ec_key_import P (Some x) false | None => None end) orfail h ;;
              ctx <-- ecdh_ctx_create P (ek_curve ephemeral) AES256_GCM orfail h ;;
              k <-- root_key_create_random AES256_GCM (hs_evo h) (hs_evo h) orfail h ;;
              let h := set_root (Some k) h in
              ser <-- mlift (pack_buffer (pb_response_data_pack (Some (root_key_to_proto k)))) orfail h ;;
              result <-- ecdh_cipher P ctx (Some ser) (Some ephemeral) (handshake_kdf_meta h (ex_local ctx) ephemeral) orfail h ;;
              response_buffer <-- mlift (cipher_result_serialize (Some result)) orfail h ;;
              response <-- mlift (response_create (ek_pub (ex_local ctx)) response_buffer (if required then Some (hs_local h) else None)) orfail h ;;
              r <-- build_signed_packet h (PResponse response) 1 ;;
              match r with
              | (h, None) => hfail h
              | (h, Some p) => mret (match hs_status h with H_UNKNOWN => set_hstatus H_PENDING_FINALIZATION h | _ => h end, Some p)
              end
          end
      | _, _ => hfail h
      end
  end.
(* transport_handshake.c:643-659 *)
Definition process_packet (h : handshake) (pkt : tpacket) : M (handshake * option tpacket) :=
  match hs_status h with
  | H_UNKNOWN => process_initial h pkt
  | H_IN_PROGRESS => process_response h pkt
  | _ => hfail h
  end.
(* transport_handshake.c:661-685 *)
Definition handshake_verify_identity (h : handshake) (is_valid : bool) : handshake * option tpacket :=
  match is_valid, hs_status h with
  | true, H_PENDING_VERIFICATION =>
      (set_pending None (set_hstatus (match hs_root h with Some _ => H_PENDING_FINALIZATION | None => H_IN_PROGRESS end) h), hs_pending h)
  | _, _ => (set_root None (set_hstatus H_FAILED h), None)
  end.
(* transport_handshake.c:687-738: the handshake, the returned packet and the identity, if any, the
   identity callback is called with *)
Definition handshake_process (h : handshake) (packet : option tpacket) : M (handshake * option tpacket * option chain) :=
  match packet with
  | None => mret (set_hstatus H_FAILED h, None, None)
  | Some pkt =>
      if negb (union_version (tm_body (tp_meta pkt)) =? 1) then mret (set_hstatus H_FAILED h, None, None)
      else
        match hs_status h with
        | H_UNKNOWN | H_IN_PROGRESS =>
            r <-- process_packet h pkt ;;
            let '(h', p) := r in
            match hs_status h' with
            | H_FAILED => mret (h', None, None)
            | H_PENDING_VERIFICATION => mret (set_pending p h', None, chain_copy (hs_remote h'))
            | _ => mret (h', p, None)
            end
        | _ => mret (set_hstatus H_FAILED h, None, None)
        end
  end.
Definition str_sender : bytes := [x73; x65; x6e; x64; x65; x72].
Definition str_receiver : bytes := [x72; x65; x63; x65; x69; x76; x65; x72].
(* transport_handshake.c:740-801 *)
Definition handshake_finalize (h : handshake) : res (handshake * option handshake_res) :=
  let fail := Val (set_hstatus H_FAILED h, None) in
  match hs_root h, hs_status h with
  | Some k, H_PENDING_FINALIZATION =>
      match buffer_concat (hs_packet0 h) (hs_packet1 h) with
      | None => fail
      | Some transcript =>
          match sha2 P (Some transcript) None SHA512 with
          | None => fail
          | Some hash =>
              sender <- rtry (root_key_to_stream_key k hash str_sender ENCODE) ;;
              receiver <- rtry (root_key_to_stream_key k hash str_receiver DECODE) ;;
              match sender, receiver with
              | Some s, Some r =>
                  Val (set_hstatus H_COMPLETE h,
                       Some (if hs_initiator h then {| hr_local := s; hr_remote := r |} else {| hr_local := r; hr_remote := s |}))
              | _, _ => fail
              end
          end
      end
  | _, _ => fail
  end.
End Handshake.
