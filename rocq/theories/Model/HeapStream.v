(* Encrypted streams on the heap of Model/Heap.v: parts of stream_iv.c and stream_ctx.c.  They follow
   the functional models and add what is allocated, released and left behind.  Encoding and decoding
   change the context in place and give its new value besides the answer; a key that has evolved is in
   new blocks.  [s] is the number of the first random draw, [draft] what a failing decryption wrote.
   Simplification: the bytes of an argument are read once. *)
From Verif.Base Require Import Bytes.
From Verif.Model Require Import Buffer Cipher Ecdsa Prims Engine Stream Heap HeapObjects HeapMessages HeapParse HeapWrite HeapEngine HeapProtocol HeapGenerate.
Local Open Scope N_scope.
Local Open Scope h_scope.

Section Stream.
Context (P : prims).

(* stream_iv.c:74-91, with openssl_suite.c:1174-1205 for the HMAC: its data is the counter inside the
   structure.  Simplification: the buffer is made with the bytes of the nonce alone; in the code the rest
   of the HMAC's output stays in the same data block, behind the length that is set. *)
Definition h_stream_iv_generate (iv : hsi) : H (option hbuf * hsi) :=
  touch (hsi_addr iv) ;;;
  seed <-! h_bytes (hsi_seed iv) ;;
  iv_buffer <-! h_buffer_create (firstn (N.to_nat (iv_len (hsi_cipher iv))) (p_hmac P SHA512 seed (le_enc 8 (hsi_count iv)))) ;;
  match iv_buffer with
  | None => hret (None, iv)
  | Some b => hret (Some b, {| hsi_addr := hsi_addr iv; hsi_cipher := hsi_cipher iv; hsi_seed := hsi_seed iv; hsi_count := wadd64 (hsi_count iv) 1 |})
  end.

(* stream_ctx.c:7-37; the nonce generator is left behind when the context cannot be allocated *)
Definition h_stream_ctx_create (stream_key : option hst) (d : direction) (s : nat) : H (option hsc) :=
  match stream_key with
  | None => hret None
  | Some k =>
      touch (hst_addr k) ;;;
      touch (hck_addr (hst_cipher k)) ;;;
      if negb (is_authenticated (hck_cipher (hst_cipher k))) then hret None
      else
        match d with
        | ENCODE =>
            iv_factory <-? h_stream_iv_create P (hck_cipher (hst_cipher k)) s else hret tt ;;
            x <-? alloc T_stream_ctx [] else hret tt ;;
            hret (Some {| hsc_addr := x; hsc_key := k; hsc_last := 0; hsc_dir := ENCODE; hsc_iv := Some iv_factory |})
        | DECODE =>
            x <-? alloc T_stream_ctx [] else hret tt ;;
            hret (Some {| hsc_addr := x; hsc_key := k; hsc_last := 0; hsc_dir := DECODE; hsc_iv := None |})
        end
  end.

(* stream_ctx.c:96-132 *)
Definition h_stream_key_create_with_evo_buffer (old_key : hst) (evo_buffer : hbuf) : H (option hst) :=
  b <-! h_bytes evo_buffer ;;
  new_crypto_key <-? h_buffer_copy_section b 0 (digest_size SHA512 / 2) else hret tt ;;
  new_evo_key <-? h_buffer_copy_section b (digest_size SHA512 / 2) (digest_size SHA512 / 2) else h_buffer_destroy_zero (Some new_crypto_key) ;;
  touch (hst_addr old_key) ;;;
  touch (hck_addr (hst_cipher old_key)) ;;;
  cipher_key <-? h_cipher_key_create (hck_cipher (hst_cipher old_key)) (Some new_crypto_key)
    else (h_buffer_destroy_zero (Some new_crypto_key) ;;; h_buffer_destroy_zero (Some new_evo_key)) ;;
  new_key <-? h_stream_key_create (Some cipher_key) (Some new_evo_key) (hst_ppe old_key) None
    else (h_cipher_key_destroy (Some cipher_key) ;;; h_buffer_destroy_zero (Some new_evo_key)) ;;
  hret (Some new_key).
(* stream_ctx.c:159-177, one turn of the loop: the current key is released whatever happens *)
Definition h_evolve_turn (curr_key : hst) : H (option hst) :=
  touch (hst_addr curr_key) ;;;
  touch (hck_addr (hst_cipher curr_key)) ;;;
  evo_buffer <-? h_hmac_create P (Some (hck_data (hst_cipher curr_key))) (Some (hst_evo curr_key)) SHA512 else h_stream_key_destroy (Some curr_key) ;;
  new_key <-! h_stream_key_create_with_evo_buffer curr_key evo_buffer ;;
  h_stream_key_destroy (Some curr_key) ;;;
  h_buffer_destroy_zero (Some evo_buffer) ;;;
  hret new_key.
Definition h_evolve_loop (n : N) (k : hst) : H (option hst) :=
  N.iter n (fun m => o <-! m ;; match o with Some x => h_evolve_turn x | None => hret None end) (hret (Some k)).
(* stream_ctx.c:134-184: the key to go on with, None for failure; the context's key is released only
   when there is a new one *)
Definition h_evolve_key_material (key : hst) (last_seq seq_num : N) : H (option hst) :=
  touch (hst_addr key) ;;;
  let curr_evo := last_seq / hst_ppe key in
  let seq_evo := seq_num / hst_ppe key in
  if seq_evo <? curr_evo then hret None
  else if seq_evo =? curr_evo then hret (Some key)
  else
    curr_key <-? h_stream_key_copy (Some key) else hret tt ;;
    new_key <-? h_evolve_loop (seq_evo - curr_evo) curr_key else hret tt ;;
    h_stream_key_destroy (Some key) ;;;
    hret (Some new_key).

Definition hsc_set (ctx : hsc) (k : hst) (n : N) (iv : option hsi) : hsc :=
  {| hsc_addr := hsc_addr ctx; hsc_key := k; hsc_last := n; hsc_dir := hsc_dir ctx; hsc_iv := iv |}.
(* stream_ctx.c:186-209; an encoding context always has a nonce generator *)
Definition h_stream_ctx_encode (ctx : hsc) (data aad : option hbuf) (seq_num : N) : H (option hcr * hsc) :=
  match data with
  | None => hret (None, ctx)
  | Some d =>
      touch (hsc_addr ctx) ;;;
      if (seq_num <=? hsc_last ctx) || negb (direction_eqb (hsc_dir ctx) ENCODE) then hret (None, ctx)
      else match hsc_iv ctx with
           | None => hret (None, ctx)
           | Some gen =>
               g <-! h_stream_iv_generate gen ;;
               match g with
               | (None, gen') => hret (None, hsc_set ctx (hsc_key ctx) (hsc_last ctx) (Some gen'))
               | (Some iv, gen') =>
                   k <-! h_evolve_key_material (hsc_key ctx) (hsc_last ctx) seq_num ;;
                   match k with
                   | None => h_buffer_destroy (Some iv) ;;; hret (None, hsc_set ctx (hsc_key ctx) (hsc_last ctx) (Some gen'))
                   | Some key =>
                       touch (hst_addr key) ;;;
                       encrypt_result <-! h_aes256_encrypt P (Some d) aad (Some (hst_cipher key)) (Some iv) 0%nat ;;
                       h_buffer_destroy (Some iv) ;;;
                       hret (encrypt_result, hsc_set ctx key seq_num (Some gen'))
                   end
               end
           end
  end.
(* stream_ctx.c:211-226 *)
Definition h_stream_ctx_decode (ctx : hsc) (data : option hcr) (aad : option hbuf) (seq_num : N) (draft : bytes) : H (option hbuf * hsc) :=
  match data with
  | None => hret (None, ctx)
  | Some d =>
      touch (hsc_addr ctx) ;;;
      if (seq_num <=? hsc_last ctx) || negb (direction_eqb (hsc_dir ctx) DECODE) then hret (None, ctx)
      else
        k <-! h_evolve_key_material (hsc_key ctx) (hsc_last ctx) seq_num ;;
        match k with
        | None => hret (None, ctx)
        | Some key =>
            touch (hst_addr key) ;;;
            decrypt_result <-! h_aes256_decrypt P (Some d) aad (Some (hst_cipher key)) true draft ;;
            hret (decrypt_result, hsc_set ctx key seq_num (hsc_iv ctx))
        end
  end.

End Stream.
