(* Sending and receiving data over an active transport on the heap of Model/Heap.v: the parts of
   transport_ctx.c that work on one of the two streams.  The functions follow Model/Transport.v and
   add what is allocated, released and left behind.  The stream is changed in place: its new state is
   given besides the answer.  No answer means that the context goes to the error state; its members
   other than the stream, and the callbacks, are not part of this model. *)
From Verif.Base Require Import Bytes Monad.
From Verif.Model Require Import Buffer Cipher Prims Engine Stream TransportPacket Transport Heap HeapObjects HeapMessages HeapParse HeapWrite HeapEngine HeapStream.
Local Open Scope N_scope.
Local Open Scope h_scope.

Section Channel.
Context (P : prims).

(* transport_ctx.c:170-208 *)
Definition h_encode_pkt (tx : hsc) (data : hbuf) : H (option htp * hsc) :=
  touch (hsc_addr tx) ;;;
  let next_pkt_seq := wadd64 (hsc_last tx) 1 in
  let meta := meta_data next_pkt_seq MAC_AUTH_CIPHER in
  aad_buffer <-! h_tmeta_serialize meta ;;
  match aad_buffer with
  | None => hret (None, tx)
  | Some aad =>
      r <-! h_stream_ctx_encode P tx (Some data) (Some aad) next_pkt_seq ;;
      h_buffer_destroy (Some aad) ;;;
      match fst r with
      | None => hret (None, snd r)
      | Some cipher_result =>
          serialized <-! h_cipher_result_serialize (Some cipher_result) ;;
          h_cipher_result_destroy (Some cipher_result) ;;;
          match serialized with
          | None => hret (None, snd r)
          | Some body =>
              pkt <-! h_tpacket_create meta (Some body) ;;
              match pkt with
              | None => h_buffer_destroy (Some body) ;;; hret (None, snd r)
              | Some p => hret (Some p, snd r)
              end
          end
      end
  end.
(* transport_ctx.c:351-367, of an active context: the bytes for the network *)
Definition h_channel_send (tx : hsc) (data : hbuf) : H (option hbuf * hsc) :=
  r <-! h_encode_pkt tx data ;;
  match fst r with
  | None => hret (None, snd r)
  | Some tx_packet =>
      out_buffer <-! h_tpacket_serialize (Some tx_packet) ;;
      h_tpacket_destroy (Some tx_packet) ;;;
      hret (out_buffer, snd r)
  end.

(* transport_ctx.c:140-169; [pad] as in Model/Transport.v, [draft] is what an output buffer holds
   before it is filled *)
Definition h_decode_pkt (rx : hsc) (pkt : htp) (pad : N) (draft : bytes) : H (option hbuf * hsc) :=
  touch (htp_addr pkt) ;;;
  body <-! h_bytes (htp_body pkt) ;;
  cipher_result <-! h_cipher_result_from_bytes body ;;
  match cipher_result with
  | None => hret (None, rx)
  | Some c =>
      if negb (tm_mac (htp_meta pkt) =? MAC_AUTH_CIPHER) then h_cipher_result_destroy (Some c) ;;; hret (None, rx)
      else
        aad_buffer <-! h_tmeta_serialize (htp_meta pkt) ;;
        match aad_buffer with
        | None => h_cipher_result_destroy (Some c) ;;; hret (None, rx)
        | Some aad =>
            r <-! h_stream_ctx_decode P rx (Some c) (Some aad) (union_sequence pad (tm_body (htp_meta pkt))) draft ;;
            h_cipher_result_destroy (Some c) ;;;
            h_buffer_destroy (Some aad) ;;;
            hret r
        end
  end.
(* transport_ctx.c:427-454, of a context that has a receiving stream and no handshake: the data for the user *)
Definition h_channel_receive (rx : hsc) (buffer : hbuf) (pad : N) (draft : bytes) : H (option hbuf * hsc) :=
  b <-! h_bytes buffer ;;
  packet <-! h_tpacket_from_bytes b ;;
  match packet with
  | None => hret (None, rx)
  | Some p =>
      r <-! h_decode_pkt rx p pad draft ;;
      h_tpacket_destroy (Some p) ;;;
      hret r
  end.
End Channel.
