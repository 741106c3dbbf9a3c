(* Model of transport_ctx.c (src/wickrcrypto/src).
   The callbacks are outputs: a call gives the list of callbacks it makes, in order.  The identity
   callback may answer before it returns ([answer] of a receive) or later (TAnswer).
   Simplifications: the context pointer is not NULL; the callbacks do not call back into the
   context except to answer about an identity; leaks are not modelled. *)
From Verif.Base Require Import Bytes Monad.
From Verif.Model Require Import Buffer Cipher Ecdsa Prims Engine Identity Stream TransportPacket Handshake.
Local Open Scope N_scope.
Local Open Scope res_scope.
Local Open Scope m_scope.

(* transport_ctx.h:53-58 *)
Inductive tstatus := T_NONE | T_INITIAL_HANDSHAKE | T_ACTIVE | T_ERROR.
Definition tstatus_eqb (a b : tstatus) : bool :=
  match a, b with
  | T_NONE, T_NONE | T_INITIAL_HANDSHAKE, T_INITIAL_HANDSHAKE | T_ACTIVE, T_ACTIVE | T_ERROR, T_ERROR => true
  | _, _ => false
  end.
(* transport_error.h:59-73 *)
Inductive terror := E_NONE | E_HANDSHAKE_FAILED | E_CREATE_HANDSHAKE_FAILED | E_START_HANDSHAKE_FAILED
| E_PROCESS_HANDSHAKE_FAILED | E_HANDSHAKE_VOLLEY_FAILED | E_BAD_START_STATUS | E_BAD_RX_STATE | E_BAD_TX_STATE
| E_PACKET_ENCODE_FAILED | E_PACKET_DECODE_FAILED | E_PACKET_SERIALIZATION_FAILED | E_INVALID_RXDATA.
Record transport := {
  tc_local : chain; tc_remote : option chain; tc_tx : option stream_ctx; tc_rx : option stream_ctx;
  tc_handshake : option handshake; tc_status : tstatus; tc_evo : N; tc_err : terror }.
(* wickr_transport_callbacks_t *)
Inductive tevent := EvState (s : tstatus) | EvTx (b : bytes) | EvRx (b : bytes) | EvVerify (c : chain).

Definition set_tstatus (s : tstatus) (c : transport) : transport :=
  {| tc_local := tc_local c; tc_remote := tc_remote c; tc_tx := tc_tx c; tc_rx := tc_rx c; tc_handshake := tc_handshake c;
     tc_status := s; tc_evo := tc_evo c; tc_err := tc_err c |}.
Definition set_terr (e : terror) (c : transport) : transport :=
  {| tc_local := tc_local c; tc_remote := tc_remote c; tc_tx := tc_tx c; tc_rx := tc_rx c; tc_handshake := tc_handshake c;
     tc_status := tc_status c; tc_evo := tc_evo c; tc_err := e |}.
Definition set_thandshake (h : option handshake) (c : transport) : transport :=
  {| tc_local := tc_local c; tc_remote := tc_remote c; tc_tx := tc_tx c; tc_rx := tc_rx c; tc_handshake := h;
     tc_status := tc_status c; tc_evo := tc_evo c; tc_err := tc_err c |}.
Definition set_streams (tx rx : option stream_ctx) (c : transport) : transport :=
  {| tc_local := tc_local c; tc_remote := tc_remote c; tc_tx := tx; tc_rx := rx; tc_handshake := tc_handshake c;
     tc_status := tc_status c; tc_evo := tc_evo c; tc_err := tc_err c |}.

(* transport_ctx.c:14-22 *)
Definition update_status (s : tstatus) (c : transport) : transport * list tevent :=
  if tstatus_eqb (tc_status c) s then (c, []) else (set_tstatus s c, [EvState s]).
(* transport_ctx.c:24-30 *)
Definition set_error (e : terror) (c : transport) : transport * list tevent := update_status T_ERROR (set_terr e c).
Definition PACKET_PER_EVO_DEFAULT : N := 512.
(* transport_ctx.c:32-63 *)
Definition transport_create (local remote : option chain) (evo : N) : option transport :=
  match local with
  | None => None
  | Some l =>
      if PACKET_PER_EVO_MAX <? evo then None
      else Some {| tc_local := l; tc_remote := remote; tc_tx := None; tc_rx := None; tc_handshake := None;
                   tc_status := T_NONE; tc_evo := if evo =? 0 then PACKET_PER_EVO_DEFAULT else evo; tc_err := E_NONE |}
  end.
(* transport_ctx.c:65-122; fails without a remote identity, drops the handshake and the error *)
Definition transport_copy (x : option transport) : option transport :=
  match x with
  | None => None
  | Some c =>
      match chain_copy (Some (tc_local c)), chain_copy (tc_remote c) with
      | Some l, Some r =>
          match tc_tx c, stream_ctx_copy (tc_tx c) with
          | Some _, None => None
          | _, tx =>
              match tc_rx c, stream_ctx_copy (tc_rx c) with
              | Some _, None => None
              | _, rx => Some {| tc_local := l; tc_remote := Some r; tc_tx := tx; tc_rx := rx; tc_handshake := None;
                                 tc_status := tc_status c; tc_evo := tc_evo c; tc_err := E_NONE |}
              end
          end
      | _, _ => None
      end
  end.

(* transport_ctx.c:161: the sequence_number member of the union, whatever the body type.  Of a
   handshake packet it is the version byte and seven bytes of padding, which nobody wrote: [pad]. *)
Definition union_sequence (pad : N) (b : body_meta) : N :=
  match b with Ciphertext s => s | Handshake v _ => v mod 256 + 256 * (pad mod 2 ^ 56) end.

Section Transport.
Context (P : prims).

(* transport_ctx.c:140-169: the plaintext and the stream after the call *)
Definition decode_pkt (rx : stream_ctx) (pkt : tpacket) (pad : N) : res bytes * stream_ctx :=
  match cipher_result_from_buffer (Some (tp_body pkt)) with
  | UB => (UB, rx)
  | Null => (Null, rx)
  | Val r =>
      if negb (tm_mac (tp_meta pkt) =? MAC_AUTH_CIPHER) then (Null, rx)
      else match tmeta_serialize (tp_meta pkt) with
           | None => (Null, rx)
           | Some aad => stream_ctx_decode P rx (Some r) (Some aad) (union_sequence pad (tm_body (tp_meta pkt)))
           end
  end.
(* transport_ctx.c:170-208 *)
Definition encode_pkt (tx : stream_ctx) (data : bytes) : res tpacket * stream_ctx :=
  let next_pkt_seq := wadd64 (sc_last tx) 1 in
  let meta := meta_data next_pkt_seq MAC_AUTH_CIPHER in
  match tmeta_serialize meta with
  | None => (Null, tx)
  | Some aad =>
      let '(r, tx') := stream_ctx_encode P tx (Some data) (Some aad) next_pkt_seq in
      (x <- r ;; serialized <~ cipher_result_serialize (Some x) ;; lift (tpacket_create meta (Some serialized)), tx')
  end.
(* transport_ctx.c:210-248 *)
Definition finalize_handshake (c : transport) (h : handshake) : M (transport * list tevent) :=
  f <-= handshake_finalize P h ;;
  match f with
  | (h', None) => mret (set_thandshake (Some h') c, [])
  | (_, Some r) =>
      let c := set_thandshake None c in
      tx <-- mtry (stream_ctx_create P (stream_key_copy (Some (hr_local r))) ENCODE) ;;
      match tx with
      | None => mret (c, [])
      | Some tx =>
          rx <-- mtry (stream_ctx_create P (stream_key_copy (Some (hr_remote r))) DECODE) ;;
          match rx with
          | None => mret (c, [])
          | Some rx => mret (update_status T_ACTIVE (set_streams (Some tx) (Some rx) c))
          end
      end
  end.
Definition handshake_status (h : option handshake) : hstatus := match h with Some x => hs_status x | None => H_UNKNOWN end.
(* the common end of transport_ctx.c:250-278 and 388-408 *)
Definition after_handshake (c : transport) (volley : option tpacket) (failed unserializable : terror) : M (transport * list tevent) :=
  r <-- (match tc_handshake c with
         | Some h => match hs_status h with H_PENDING_FINALIZATION => finalize_handshake c h | _ => mret (c, []) end
         | None => mret (c, [])
         end) ;;
  let '(c, ev) := r in
  match handshake_status (tc_handshake c) with
  | H_FAILED => let '(c', ev') := set_error failed c in mret (c', ev ++ ev')%list
  | _ =>
      match volley with
      | None => mret (c, ev)
      | Some p =>
          match tpacket_serialize p with
          | None => let '(c', ev') := set_error unserializable c in mret (c', ev ++ ev')%list
          | Some b => mret (c, ev ++ [EvTx b])%list
          end
      end
  end.
(* transport_ctx.c:250-278 *)
Definition identity_complete (c : transport) (is_valid : bool) : M (transport * list tevent) :=
  match tc_handshake c with
  | None => after_handshake c None E_HANDSHAKE_FAILED E_HANDSHAKE_VOLLEY_FAILED
  | Some h =>
      let '(h', volley) := handshake_verify_identity h is_valid in
      after_handshake (set_thandshake (Some h') c) volley E_HANDSHAKE_FAILED E_HANDSHAKE_VOLLEY_FAILED
  end.
(* transport_ctx.c:288-306; a remote identity that cannot be copied is forgotten *)
Definition create_handshake (c : transport) : option handshake :=
  handshake_create (chain_copy (Some (tc_local c))) (chain_copy (tc_remote c)) (tc_evo c).
(* transport_ctx.c:308-342 *)
Definition transport_start (c : transport) : M (transport * list tevent) :=
  match tc_status c with
  | T_NONE =>
      match create_handshake c with
      | None => mret (set_error E_CREATE_HANDSHAKE_FAILED (set_thandshake None c))
      | Some h =>
          r <-- handshake_start P h ;;
          let '(h', pkt) := r in
          match pkt, hs_status h' with
          | None, _ | _, H_FAILED => mret (set_error E_START_HANDSHAKE_FAILED (set_thandshake None c))
          | Some p, _ =>
              match tpacket_serialize p with
              | None => mret (set_error E_PACKET_SERIALIZATION_FAILED (set_thandshake None c))
              | Some b => let '(c', ev) := update_status T_INITIAL_HANDSHAKE (set_thandshake (Some h') c) in
                          mret (c', ev ++ [EvTx b])%list
              end
          end
      end
  | _ => mret (set_error E_BAD_START_STATUS c)
  end.
(* transport_ctx.c:344-368; an active context has a transmitting stream *)
Definition process_tx_buffer (c : transport) (buffer : option bytes) : M (transport * list tevent) :=
  match buffer, tc_status c, tc_tx c with
  | Some data, T_ACTIVE, None => mres UB
  | Some data, T_ACTIVE, Some tx =>
      let '(r, tx') := encode_pkt tx data in
      let c := set_streams (Some tx') (tc_rx c) c in
      pkt <-= rtry r ;;
      match pkt with
      | None => mret (set_error E_PACKET_ENCODE_FAILED c)
      | Some p => match tpacket_serialize p with
                  | None => mret (set_error E_PACKET_SERIALIZATION_FAILED c)
                  | Some b => mret (c, [EvTx b])
                  end
      end
  | _, _, _ => mret (set_error E_BAD_TX_STATE c)
  end.
(* transport_ctx.c:370-409.  When the identity callback answers at once, its answer is handled
   (identity_complete) inside the call of handshake_process, which then returns NULL. *)
Definition process_handshake_packet (c : transport) (pkt : tpacket) (answer : option bool) : M (transport * list tevent) :=
  match (match tc_handshake c with Some h => Some h | None => create_handshake c end) with
  | None => mret (set_error E_CREATE_HANDSHAKE_FAILED c)
  | Some h =>
      r <-- handshake_process P h (Some pkt) ;;
      let '(h', volley, asked) := r in
      let c := set_thandshake (Some h') c in
      r2 <-- (match asked, answer with
              | Some i, Some v => x <-- identity_complete c v ;; let '(c', ev) := x in mret (c', EvVerify i :: ev)
              | Some i, None => mret (c, [EvVerify i])
              | None, _ => mret (c, [])
              end) ;;
      let '(c, ev) := r2 in
      r3 <-- after_handshake c volley E_PROCESS_HANDSHAKE_FAILED E_PACKET_SERIALIZATION_FAILED ;;
      let '(c, ev3) := r3 in
      mret (c, ev ++ ev3)%list
  end.
(* transport_ctx.c:411-414; the constant it compares with is 0, that is T_NONE *)
Definition can_process_handshake (c : transport) : bool :=
  match tc_handshake c with Some _ => true | None => tstatus_eqb (tc_status c) T_NONE end.
(* transport_ctx.c:416-455 *)
Definition process_rx_buffer (c : transport) (buffer : option bytes) (answer : option bool) (pad : N) : M (transport * list tevent) :=
  match buffer, tc_status c with
  | None, _ => mret (set_error E_INVALID_RXDATA c)
  | Some _, T_ERROR => mret (c, [])
  | Some b, _ =>
      packet <-= rtry (tpacket_create_from_buffer (Some b)) ;;
      match packet with
      | None => mret (set_error E_INVALID_RXDATA c)
      | Some pkt =>
          if can_process_handshake c && (body_type (tm_body (tp_meta pkt)) =? 0) then process_handshake_packet c pkt answer
          else match tc_rx c with
               | Some rx =>
                   let '(r, rx') := decode_pkt rx pkt pad in
                   let c := set_streams (tc_tx c) (Some rx') c in
                   d <-= rtry r ;;
                   match d with
                   | None => mret (set_error E_PACKET_DECODE_FAILED c)
                   | Some data => mret (c, [EvRx data])
                   end
               | None => mret (set_error E_BAD_RX_STATE c)
               end
      end
  end.

(* what the user of a context can do *)
Inductive top :=
| TStart
| TSend (data : option bytes)
| TReceive (buffer : option bytes) (answer : option bool) (pad : N)
| TAnswer (is_valid : bool).
Definition transport_step (c : transport) (o : top) : M (transport * list tevent) :=
  match o with
  | TStart => transport_start c
  | TSend d => process_tx_buffer c d
  | TReceive b a pad => process_rx_buffer c b a pad
  | TAnswer v => identity_complete c v
  end.
End Transport.
