(* Sending a packet on the heap of Model/Heap.v: packet assembly in protocol.c:573-658 and
   wickr_ctx_encode_packet in wickr_ctx.c:751-790.  They follow the functional models and add what is
   allocated, released and left behind.  The recipients are validated in place: their new state is
   given besides the answer.  [s] is the number of the first random draw.
   Simplification: the structure of the recipient array is read once. *)
From Verif.Base Require Import Bytes.
From Verif.Model Require Import Buffer Cipher Ecdsa Prims Engine Keys Ctx Heap HeapObjects HeapMessages HeapParse HeapWrite HeapEngine HeapProtocol HeapGenerate HeapContext.
Local Open Scope N_scope.
Local Open Scope h_scope.

(* a structure on the stack of the caller: it is there whatever fails *)
Definition h_local : H (option block) := fun _ h => alloc T_key_exchange_set [] (fun _ _ => false) h.

Section Sending.
Context (P : prims).

(* protocol.c:573-588; wickr_node_verify_signature_chain says no to NULL (node.c:54-56) *)
Fixpoint h_recipients_validate (l : list (option hnd)) : H (bool * list (option hnd)) :=
  match l with
  | [] => hret (true, [])
  | None :: r => hret (false, None :: r)
  | Some n :: r =>
      v <-! h_node_verify_signature_chain P n ;;
      if negb (fst v) then hret (false, Some (snd v) :: r)
      else w <-! h_recipients_validate r ;; hret (fst w, Some (snd v) :: snd w)
  end.

(* protocol.c:613-634; an array that could not be made takes no item *)
Fixpoint h_make_exchanges (sender : hch) (exchange_key : option hkey) (payload_key : hck) (version : N) (l : list (option hnd)) (i : nat)
    (exchange_array : option (harr hkx)) (s : nat) : H (option (harr hkx)) :=
  match l with
  | [] => hret exchange_array
  | one_node :: r =>
      one_exchange <-? h_exchange_create_with_packet_key P (Some sender) one_node exchange_key (Some payload_key) None version s
        else h_exchange_array_destroy exchange_array ;;
      match exchange_array with
      | None => h_key_exchange_destroy (Some one_exchange) ;;; hret None
      | Some a =>
          p <-! h_array_put a i one_exchange ;;
          if fst p then h_make_exchanges sender exchange_key payload_key version r (S i) (Some (snd p)) (S s)
          else h_key_exchange_destroy (Some one_exchange) ;;; h_exchange_array_destroy (Some (snd p)) ;;; hret None
      end
  end.
(* protocol.c:636-657; the header is a structure on the stack *)
Definition h_seal_packet (header_key payload_key : hck) (exchange_key : hkey) (p : hpy) (sender : hch) (version : N) (exchange_array : harr hkx) (s : nat) : H (option hpt) :=
  packet_header <-# h_local ;;
  enc_header <-! h_exchange_set_encrypt P (Some {| hxs_addr := packet_header; hxs_sender := exchange_key; hxs_items := exchange_array |}) (Some header_key) s ;;
  free packet_header ;;;
  h_exchange_array_destroy (Some exchange_array) ;;;
  match enc_header with
  | None => hret None
  | Some eh =>
      enc_payload <-? h_payload_encrypt P (Some p) (Some payload_key) (S s) else h_cipher_result_destroy (Some eh) ;;
      touch (hch_addr sender) ;;;
      touch (hid_addr (hch_node sender)) ;;;
      packet <-! h_packet_create_with_components P (Some eh) (Some enc_payload) (Some (hid_key (hch_node sender))) version (S (S s)) ;;
      h_cipher_result_destroy (Some eh) ;;;
      h_cipher_result_destroy (Some enc_payload) ;;;
      hret packet
  end.
(* the recipient array with other nodes in it *)
Definition with_items (a : harr hnd) (l : list (option hnd)) : harr hnd := {| harr_addr := harr_addr a; harr_store := harr_store a; harr_items := l |}.
(* protocol.c:591-658; without an exchange key no exchange can have been made *)
Definition h_packet_create_from_components (header_key payload_key : option hck) (exchange_key : option hkey) (p : option hpy)
    (recipients : option (harr hnd)) (sender : option hch) (version : N) (s : nat) : H (option hpt * option (harr hnd)) :=
  match payload_key, header_key, p, recipients, sender with
  | Some pk, Some hk, Some pl, Some rs, Some se =>
      touch (harr_addr rs) ;;;
      match harr_items rs with
      | [] => hret (None, Some rs)
      | _ =>
          v <-! h_recipients_validate (harr_items rs) ;;
          let rs' := with_items rs (snd v) in
          if negb (fst v) then hret (None, Some rs')
          else
            array <-! h_array_new (length (snd v)) ;;
            exchange_array <-! h_make_exchanges se exchange_key pk version (snd v) 0 array s ;;
            match exchange_array with
            | None => hret (None, Some rs')
            | Some a =>
                match exchange_key with
                | None => hub
                | Some ek =>
                    packet <-! h_seal_packet hk pk ek pl se version a (length (snd v) + s) ;;
                    hret (packet, Some rs')
                end
            end
      end
  | _, _, _, _, _ => hret (None, recipients)
  end.

(* wickr_ctx.c:751-790; the suite's default curve is P521 (crypto_engine.c:20) *)
Definition h_ctx_encode_packet (ctx : option hcx) (p : option hpy) (nodes : option (harr hnd)) (s : nat) : H (option hen * option (harr hnd)) :=
  match ctx, p, nodes with
  | Some x, Some pl, Some ns =>
      touch (hcx_addr x) ;;;
      k <-! h_cipher_key_random P default_cipher s ;;
      match k with
      | None => hret (None, nodes)
      | Some rnd_payload_key =>
          e <-! h_ec_rand_key P P521 (S s) ;;
          match e with
          | None => h_cipher_key_destroy (Some rnd_payload_key) ;;; hret (None, nodes)
          | Some rnd_exchange_key =>
              g <-! h_packet_create_from_components (Some (hcx_header x)) (Some rnd_payload_key) (Some rnd_exchange_key) (Some pl) (Some ns)
                      (Some (hcx_chain x)) (hcx_version x) (S (S s)) ;;
              h_ec_key_destroy (Some rnd_exchange_key) ;;;
              ctx_encode <-! h_encoder_result_create (Some rnd_payload_key) (fst g) ;;
              match ctx_encode with
              | None =>
                  h_cipher_key_destroy (Some rnd_payload_key) ;;;
                  h_packet_destroy (fst g) ;;;
                  hret (None, snd g)
              | Some c => hret (Some c, snd g)
              end
          end
      end
  | _, _, _ => hret (None, nodes)
  end.
End Sending.
