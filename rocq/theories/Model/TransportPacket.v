(* Model of transport_packet.c (src/wickrcrypto/src).
   Simplifications: meta.body_type is one of its two enumerators (the parser rejects others and
   the two initializers set no others); the sequence number and flags are numbers, written in
   the byte order of the little-endian targets. *)
From Verif.Base Require Import Bytes Monad.
From Verif.Model Require Import Buffer Cipher Ecdsa Prims Engine Identity.
Local Open Scope N_scope.
Local Open Scope res_scope.
Local Open Scope m_scope.

(* transport_packet.h: wickr_transport_packet_payload_type, wickr_transport_packet_mac_type *)
Definition MAC_NONE : N := 0.
Definition MAC_AUTH_CIPHER : N := 1.
Definition MAC_EC_P521 : N := 2.
Inductive body_meta := Handshake (version flags : N) | Ciphertext (seq : N).
Definition body_type (b : body_meta) : N := match b with Handshake _ _ => 0 | Ciphertext _ => 1 end.
Record tmeta := { tm_body : body_meta; tm_mac : N }.
Record tpacket := { tp_network : option bytes; tp_body : bytes; tp_mac : option bytes; tp_meta : tmeta }.

(* transport_packet.c:5-23 *)
Definition meta_handshake (version mac : N) : tmeta := {| tm_body := Handshake version 0; tm_mac := mac |}.
Definition meta_data (seq mac : N) : tmeta := {| tm_body := Ciphertext seq; tm_mac := mac |}.
(* transport_packet.c:25-81 *)
Definition tmeta_serialize (m : tmeta) : option bytes :=
  let b0 := n2b (N.lor (N.shiftl (body_type (tm_body m)) 4) (tm_mac m)) in
  match tm_body m with
  | Ciphertext seq => buffer_create (b0 :: le_enc 8 seq)
  | Handshake v f => buffer_create (b0 :: n2b v :: le_enc 8 f)
  end.
(* transport_packet.c:83-126; the metadata and the number of bytes read *)
Definition tmeta_parse (b : bytes) : res (tmeta * N) :=
  if blen b <=? 1 then Null
  else
    b0 <- rd b 0 ;;
    let bt := N.shiftr (N.land (b2n b0) 240) 4 in
    let mac := N.land (b2n b0) 15 in
    if bt =? 1 then
      (guard (9 <=? blen b) ;;
       x <- memread b 1 8 ;;
       Val ({| tm_body := Ciphertext (le_dec x); tm_mac := mac |}, 9))
    else if bt =? 0 then
      (guard (10 <=? blen b) ;;
       v <- rd b 1 ;;
       x <- memread b 2 8 ;;
       Val ({| tm_body := Handshake (b2n v) (le_dec x); tm_mac := mac |}, 10))
    else Null.

(* transport_packet.c:128-144 *)
Definition tpacket_create (m : tmeta) (body : option bytes) : option tpacket :=
  match body with
  | None => None
  | Some b => Some {| tp_network := None; tp_body := b; tp_mac := None; tp_meta := m |}
  end.
Definition set_mac (p : tpacket) (mac : option bytes) : tpacket :=
  {| tp_network := tp_network p; tp_body := tp_body p; tp_mac := mac; tp_meta := tp_meta p |}.
Definition set_network (p : tpacket) (n : option bytes) : tpacket :=
  {| tp_network := n; tp_body := tp_body p; tp_mac := tp_mac p; tp_meta := tp_meta p |}.
Definition set_mac_type (p : tpacket) (t : N) : tpacket :=
  {| tp_network := tp_network p; tp_body := tp_body p; tp_mac := tp_mac p; tp_meta := {| tm_body := tm_body (tp_meta p); tm_mac := t |} |}.
(* transport_packet.c:146-177; the network buffer is not copied *)
Definition tpacket_copy (p : option tpacket) : option tpacket :=
  match p with
  | None => None
  | Some x =>
      match buffer_copy (Some (tp_body x)) with
      | None => None
      | Some b =>
          match tp_mac x, buffer_copy (tp_mac x) with
          | Some _, None => None
          | _, m => option_map (fun c => set_mac c m) (tpacket_create (tp_meta x) (Some b))
          end
      end
  end.
(* transport_packet.c:192-209 *)
Definition tpacket_serialize (p : tpacket) : option bytes :=
  match tmeta_serialize (tp_meta p) with
  | None => None
  | Some m => buffer_concat_multi [Some m; Some (tp_body p); tp_mac p]
  end.
(* transport_packet.c:211-276 *)
Definition tpacket_create_from_buffer (buffer : option bytes) : res tpacket :=
  match buffer with
  | None => Null
  | Some b =>
      r <- tmeta_parse b ;;
      let '(meta, start_pos) := r in
      let mac_size := if tm_mac meta =? MAC_EC_P521 then signature_size P521 else 0 in
      if blen b <=? start_pos + mac_size then Null
      else
        mac <- (if mac_size =? 0 then Val None
                else (x <~ buffer_copy_section b (blen b - mac_size) mac_size ;; Val (Some x))) ;;
        body <~ buffer_copy_section b start_pos (blen b - mac_size - start_pos) ;;
        pkt <~ tpacket_create meta (Some body) ;;
        net <~ buffer_copy (Some b) ;;
        Val (set_network (set_mac pkt mac) (Some net))
  end.

Section TransportPacket.
Context (P : prims).
(* transport_packet.c:278-324: the answer, and the packet after the call.  The old mac, if any, is
   part of what is signed. *)
Definition tpacket_sign (p : tpacket) (c : chain) : M (bool * tpacket) :=
  let new_mac_type := match ek_curve (id_key (ch_node c)) with P521 => MAC_EC_P521 end in
  match tpacket_serialize (set_mac_type p new_mac_type) with
  | None => mret (false, p)
  | Some data =>
      signature <-- mtry (identity_sign P (Some (ch_node c)) (Some data)) ;;
      match ecdsa_result_serialize signature with
      | None => mret (false, p)
      | Some m =>
          let p' := set_mac_type (set_mac p (Some m)) new_mac_type in
          let net := tpacket_serialize p' in
          mret (match net with Some _ => true | None => false end, set_network p' net)
      end
  end.
(* transport_packet.c:326-364: the answer, the packet and the chain after the call *)
Definition tpacket_verify (p : tpacket) (c : chain) : res bool * tpacket * chain :=
  match tp_mac p with
  | None => (Val false, p, c)
  | Some mac =>
      if negb (tm_mac (tp_meta p) =? MAC_EC_P521) then (Val false, p, c)
      else
        match (match tp_network p with Some n => Some n | None => tpacket_serialize p end) with
        | None => (Val false, p, c)
        | Some n =>
            let p' := set_network p (Some n) in
            let '(valid, c') := chain_validate P c in
            if negb valid then (Val false, p', c')
            else if blen n <=? blen mac then (Val false, p', c')
            else
              match ecdsa_result_create_from_buffer (Some mac) with
              | Null => (Val false, p', c')
              | UB => (UB, p', c')
              | Val s => (Val (ec_verify P (Some s) (Some (id_key (ch_node c')))
                                (Some (firstn (N.to_nat (blen n - blen mac)) n))), p', c')
              end
        end
  end.
End TransportPacket.
