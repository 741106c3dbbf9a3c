(* Signing and verifying transport packets on the heap of Model/Heap.v: transport_packet.c:278-364.
   The functions follow the functional models of Model/TransportPacket.v and add what is allocated,
   released and left behind.  The packet, and for verification the chain, are changed in place:
   their new state is given besides the answer.  [s] is the number of the first random draw. *)
From Verif.Base Require Import Bytes.
From Verif.Model Require Import Buffer Cipher Ecdsa Prims Engine Identity TransportPacket Heap HeapObjects HeapMessages HeapParse HeapWrite HeapEngine HeapGenerate HeapContext.
Local Open Scope N_scope.
Local Open Scope h_scope.

(* assignments to the members of a packet *)
Definition htp_set_type (p : htp) (t : N) : htp :=
  {| htp_addr := htp_addr p; htp_network := htp_network p; htp_body := htp_body p; htp_mac := htp_mac p; htp_meta := {| tm_body := tm_body (htp_meta p); tm_mac := t |} |}.
Definition htp_set_mac (p : htp) (m : option hbuf) : htp :=
  {| htp_addr := htp_addr p; htp_network := htp_network p; htp_body := htp_body p; htp_mac := m; htp_meta := htp_meta p |}.
Definition htp_set_network (p : htp) (n : option hbuf) : htp :=
  {| htp_addr := htp_addr p; htp_network := n; htp_body := htp_body p; htp_mac := htp_mac p; htp_meta := htp_meta p |}.

Section Transport.
Context (P : prims).

(* transport_packet.c:278-324; what the packet pointed to as its mac (316) and as its network
   buffer (319) before is not released.  There is one curve, so 285-292 has no other case. *)
Definition h_tpacket_sign (pkt : htp) (identity_chain : hch) (s : nat) : H (bool * htp) :=
  touch (hch_addr identity_chain) ;;;
  touch (hid_addr (hch_node identity_chain)) ;;;
  touch (hkey_addr (hid_key (hch_node identity_chain))) ;;;
  let new_mac_type := match hkey_curve (hid_key (hch_node identity_chain)) with P521 => MAC_EC_P521 end in
  data_to_sign <-! h_tpacket_serialize (Some (htp_set_type pkt new_mac_type)) ;;
  match data_to_sign with
  | None => hret (false, pkt)
  | Some d =>
      signature <-! h_identity_sign P (Some (hch_node identity_chain)) (Some d) s ;;
      h_buffer_destroy (Some d) ;;;
      match signature with
      | None => hret (false, pkt)
      | Some g =>
          signature_buffer <-! h_ecdsa_result_serialize (Some g) ;;
          h_ecdsa_result_destroy (Some g) ;;;
          match signature_buffer with
          | None => hret (false, pkt)
          | Some m =>
              let p := htp_set_type (htp_set_mac pkt (Some m)) new_mac_type in
              network_buffer <-! h_tpacket_serialize (Some p) ;;
              hret (match network_buffer with Some _ => true | None => false end, htp_set_network p network_buffer)
          end
      end
  end.

(* openssl_suite.c:917-940 with 268-301, for data that is the first [len] bytes of another buffer:
   the structure is on the stack of the caller (transport_packet.c:354-357) *)
Definition h_ec_verify_prefix (sig : hsig) (key : hkey) (b : hbuf) (len : N) : H bool :=
  touch (hsig_addr sig) ;;;
  touch (hkey_addr key) ;;;
  ctx <-# alloc T_openssl [] ;;
  pub <-! h_bytes (hkey_pub key) ;;
  o <-! h_evp_public P pub ;;
  match o with
  | None => free ctx ;;; hret false
  | Some e =>
      m <-! h_bytes b ;;
      sb <-! h_bytes (hsig_data sig) ;;
      h_digest_ctx_destroy ctx e ;;;
      hret (p_verify P (hsig_digest sig) (evp_pub e) (firstn (N.to_nat len) m) sb)
  end.

(* transport_packet.c:326-364 *)
Definition h_tpacket_verify (packet : htp) (identity_chain : hch) : H (bool * htp * hch) :=
  touch (htp_addr packet) ;;;
  match htp_mac packet with
  | None => hret (false, packet, identity_chain)
  | Some mac =>
      if negb (tm_mac (htp_meta packet) =? MAC_EC_P521) then hret (false, packet, identity_chain)
      else
        network_buffer <-! (match htp_network packet with Some n => hret (Some n) | None => h_tpacket_serialize (Some packet) end) ;;
        match network_buffer with
        | None => hret (false, packet, identity_chain)
        | Some n =>
            let p := htp_set_network packet (Some n) in
            v <-! h_chain_validate P identity_chain ;;
            if negb (fst v) then hret (false, p, snd v)
            else
              nb <-! h_bytes n ;;
              mb <-! h_bytes mac ;;
              if blen nb <=? blen mb then hret (false, p, snd v)
              else
                signature <-! h_ecdsa_result_from_bytes mb ;;
                match signature with
                | None => hret (false, p, snd v)
                | Some g =>
                    touch (hch_addr (snd v)) ;;;
                    touch (hid_addr (hch_node (snd v))) ;;;
                    return_val <-! h_ec_verify_prefix g (hid_key (hch_node (snd v))) n (blen nb - blen mb) ;;
                    h_ecdsa_result_destroy (Some g) ;;;
                    hret (return_val, p, snd v)
                end
        end
  end.
End Transport.
