(* The operations of the default engine on the heap of Model/Heap.v: openssl_suite.c,
   crypto_engine.c and the hashing part of kdf.c.  They follow Model/Engine.v and add what is
   allocated, released and left behind.  [s] is the number of the random draw.
   An OpenSSL key or context has one block (a key two: Model/HeapParse.v); OpenSSL clears what it
   holds when it is released, so the block carries no bytes.
   Simplifications: the bytes of an argument are read once, at the first test of its length.  A
   buffer made longer than the result, whose length is then cut (the ciphertext by one byte, a
   signature), is made of the final length. *)
From Verif.Base Require Import Bytes.
From Verif.Model Require Import Buffer CString Cipher Ecdsa Kdf Prims Engine Heap HeapObjects HeapMessages HeapParse HeapWrite.
Local Open Scope N_scope.
Local Open Scope h_scope.

(* a call writes its result into a buffer *)
Definition h_fill (b : hbuf) (c : bytes) : H hbuf :=
  store (b_data b) c ;;; hret {| b_addr := b_addr b; b_data := b_data b; b_bytes := c |}.
(* OpenSSL's free functions accept NULL *)
Definition h_free_opt (x : option block) : H unit := match x with Some b => free b | None => hret tt end.
(* [len] bytes that begin like [c] *)
Definition fit (len : N) (c : bytes) : bytes := firstn (N.to_nat len) (c ++ repeat x00 (N.to_nat len)).

Section Engine.
Context (P : prims).

(* openssl_suite.c:354-369; the buffer is not tested *)
Definition h_crypto_random (len : N) (s : nat) : H (option hbuf) :=
  if INT_MAX <? len then hret None
  else
    b <-# h_buffer_create_empty len ;;
    match p_rand P s len with
    | None => h_buffer_destroy (Some b) ;;; hret None
    | Some r => x <-! h_fill b r ;; hret (Some x)
    end.
(* openssl_suite.c:371-386 *)
Definition h_cipher_key_random (c : cipher) (s : nat) : H (option hck) :=
  k <-? h_crypto_random (key_len c) s else hret tt ;;
  n <-? h_cipher_key_create c (Some k) else h_buffer_destroy_zero (Some k) ;;
  hret (Some n).

(* the buffer for the ciphertext of a text of [len] bytes: buffer.c:27-54 with len + 1 *)
Definition h_text_buffer (len : N) : H (option hbuf) :=
  if negb (size_ok (len + 1)) then hret None
  else
    a <-? alloc T_buffer [] else hret tt ;;
    d <-? alloc T_data (repeat x00 (N.to_nat len)) else free a ;;
    hret (Some {| b_addr := a; b_data := d; b_bytes := repeat x00 (N.to_nat len) |}).
(* openssl_suite.c:388-498, after the tests for NULL; the key may be on the stack
   (crypto_engine.c:93-95), so its parts are given *)
Definition h_encrypt_with (plaintext : hbuf) (aad : option hbuf) (c : cipher) (key_data : hbuf) (iv : option hbuf) (s : nat) : H (option hcr) :=
  if (match aad with Some _ => negb (is_authenticated c) | None => false end) then hret None
  else
    k <-! h_bytes key_data ;;
    pt <-! h_bytes plaintext ;;
    if negb (blen k =? key_len c) || (INT_MAX <? blen pt) then hret None
    else
      iv_f <-! (match iv with Some v => h_buffer_copy (Some v) | None => h_crypto_random (iv_len c) s end) ;;
      cipher_text <-! h_text_buffer (blen pt) ;;
      ctx <-! alloc T_openssl [] ;;
      auth_tag <-! (if is_authenticated c then h_buffer_create_empty (auth_tag_len c) else hret None) ;;
      let process_error := h_buffer_destroy auth_tag ;;; h_buffer_destroy cipher_text ;;; h_buffer_destroy iv_f ;;; h_free_opt ctx ;;; hret None in
      if is_authenticated c && (match auth_tag with None => true | Some _ => false end) then process_error
      else
        match iv_f, cipher_text, ctx with
        | Some v, Some t, Some x =>
            a <-! h_bytes_opt aad ;;
            ivb <-! h_bytes v ;;
            if blen ivb <? iv_len c then hub
            else if INT_MAX <? blen (obytes a) then hub
            else
              let n := firstn (N.to_nat (iv_len c)) ivb in
              match c, auth_tag with
              | AES256_GCM, Some g =>
                  let ct := p_gcm_enc P k n (obytes a) pt in
                  t' <-! h_fill t (fst ct) ;;
                  g' <-! h_fill g (snd ct) ;;
                  free x ;;;
                  h_cipher_result_create c (Some v) (Some t') (Some g')
              | AES256_GCM, None => process_error
              | AES256_CTR, _ =>
                  t' <-! h_fill t (p_ctr P k n pt) ;;
                  free x ;;;
                  h_cipher_result_create c (Some v) (Some t') None
              end
        | _, _, _ => process_error
        end.
(* openssl_suite.c:388-498 *)
Definition h_aes256_encrypt (plaintext aad : option hbuf) (key : option hck) (iv : option hbuf) (s : nat) : H (option hcr) :=
  match plaintext, key with
  | Some p, Some k => touch (hck_addr k) ;;; h_encrypt_with p aad (hck_cipher k) (hck_data k) iv s
  | _, _ => hret None
  end.
(* openssl_suite.c:500-605.  When the tag turns out to be wrong the text is already in the
   output buffer: [draft] is that text. *)
Definition h_aes256_decrypt (cipher_result : option hcr) (aad : option hbuf) (key : option hck) (only_auth_ciphers : bool)
    (draft : bytes) : H (option hbuf) :=
  match cipher_result, key with
  | Some r, Some k =>
      touch (hcr_addr r) ;;;
      match hcr_text r with
      | None => hret None
      | Some text =>
          let c := hcr_cipher r in
          if only_auth_ciphers && negb (is_authenticated c) then hret None
          else if (match aad with Some _ => negb (is_authenticated c) | None => false end) then hret None
          else
            touch (hck_addr k) ;;;
            ct <-! h_bytes text ;;
            if negb (cipher_id (hck_cipher k) =? cipher_id c) || (INT_MAX <? blen ct) then hret None
            else
              tag <-! h_bytes_opt (hcr_tag r) ;;
              if is_authenticated c && (match tag with Some t => negb (blen t =? auth_tag_len c) | None => true end) then hret None
              else
                ctx <-! alloc T_openssl [] ;;
                output <-! h_buffer_create_empty (blen ct) ;;
                match ctx, output with
                | Some x, Some o =>
                    kb <-! h_bytes (hck_data k) ;;
                    ivb <-! h_bytes (hcr_iv r) ;;
                    a <-! h_bytes_opt aad ;;
                    if (blen kb <? key_len c) || (blen ivb <? iv_len c) then hub
                    else
                      let kd := firstn (N.to_nat (key_len c)) kb in
                      let n := firstn (N.to_nat (iv_len c)) ivb in
                      let ad := match a with Some y => if blen y <=? INT_MAX then y else [] | None => [] end in
                      match c with
                      | AES256_GCM =>
                          match p_gcm_dec P kd n ad ct (obytes tag) with
                          | Some pt => o' <-! h_fill o pt ;; free x ;;; hret (Some o')
                          | None => o' <-! h_fill o (fit (blen ct) draft) ;; h_buffer_destroy_zero (Some o') ;;; free x ;;; hret None
                          end
                      | AES256_CTR => o' <-! h_fill o (p_ctr P kd n ct) ;; free x ;;; hret (Some o')
                      end
                | _, _ => h_buffer_destroy_zero output ;;; h_free_opt ctx ;;; hret None
                end
      end
  | _, _ => hret None
  end.

(* openssl_suite.c:623-665; the buffer of the hash is not tested *)
Definition h_sha2 (buffer salt : option hbuf) (d : digest) : H (option hbuf) :=
  match buffer with
  | None => hret None
  | Some b =>
      c <-? alloc T_openssl [] else hret tt ;;
      x <-! h_bytes b ;;
      y <-! h_bytes_opt salt ;;
      hash_result <-# h_buffer_create_empty (digest_size d) ;;
      r <-! h_fill hash_result (p_sha P d (x ++ obytes y)) ;;
      free c ;;;
      hret (Some r)
  end.
(* openssl_suite.c:1174-1205 *)
Definition h_hmac_create (data hmac_key : option hbuf) (d : digest) : H (option hbuf) :=
  match data, hmac_key with
  | Some x, Some k =>
      hmac_out <-? h_buffer_create_empty (digest_size d) else hret tt ;;
      kb <-! h_bytes k ;;
      xb <-! h_bytes x ;;
      r <-! h_fill hmac_out (p_hmac P d kb xb) ;;
      hret (Some r)
  | _, _ => hret None
  end.
(* openssl_suite.c:1207-1223 *)
Definition h_hmac_verify (data hmac_key : option hbuf) (d : digest) (expected : option hbuf) : H bool :=
  computed_hmac <-! h_hmac_create data hmac_key d ;;
  match expected, computed_hmac with
  | Some e, Some c =>
      cb <-! h_bytes c ;;
      eb <-! h_bytes e ;;
      h_buffer_destroy_zero (Some c) ;;;
      hret (buffer_is_equal (Some cb) (Some eb))
  | _, _ => hret false
  end.
(* openssl_suite.c:1583-1697, with OpenSSL 1.1 *)
Definition h_hkdf_internal (ikm salt info : option hbuf) (d : digest) (out_len : N) (expand_only : bool) : H (option hbuf) :=
  match ikm with
  | None => hret None
  | Some key =>
      i <-! h_bytes_opt info ;;
      if (match i with Some x => 1024 <? blen x | None => false end) then hret None
      else
        sl <-! h_bytes_opt salt ;;
        if (match sl with Some x => INT_MAX <? blen x | None => false end) then hret None
        else
          k <-! h_bytes key ;;
          if INT_MAX <? blen k then hret None
          else
            pctx <-? alloc T_openssl [] else hret tt ;;
            out_buffer <-? h_buffer_create_empty out_len else free pctx ;;
            free pctx ;;;
            match (if expand_only then p_hkdf_expand P d k (obytes i) out_len else p_hkdf P d (obytes sl) k (obytes i) out_len) with
            | Some b => r <-! h_fill out_buffer b ;; hret (Some r)
            | None => h_buffer_destroy (Some out_buffer) ;;; hret None
            end
  end.

(* Elliptic curve keys *)
(* openssl_suite.c:723-773; the new EC_KEY is used before it is tested *)
Definition h_ec_rand_key (c : curve) (s : nat) : H (option hkey) :=
  new_key <-# alloc T_openssl [] ;;
  match p_ec_gen P s with
  | None => free new_key ;;; hret None
  | Some (pub, pri) =>
      q <-? h_buffer_create pri else free new_key ;;
      p <-? h_buffer_create (n2b (curve_id c) :: pub) else (free new_key ;;; h_buffer_destroy_zero (Some q)) ;;
      free new_key ;;;
      k <-? h_ec_key_create c (Some p) (Some q) else (h_buffer_destroy_zero (Some q) ;;; h_buffer_destroy (Some p)) ;;
      hret (Some k)
  end.
(* EVP_MD_CTX_destroy of a context that was given a key (openssl_suite.c:263, 298): with the
   context goes the last reference to the key *)
Definition h_digest_ctx_destroy (ctx : block) (k : evp) : H unit := free ctx ;;; h_evp_free k.
(* openssl_suite.c:293-352, 895-915 with 213-266.  The context is used without a test; it is not
   released when the key is not one.  Simplification: a signature OpenSSL cannot make is refused
   before its buffer is made. *)
Definition h_ec_sign (key : option hkey) (data : option hbuf) (d : digest) (s : nat) : H (option hsig) :=
  match key, data with
  | Some k, Some x =>
      touch (hkey_addr k) ;;;
      match hkey_pri k with
      | None => hret None
      | Some q =>
          ctx <-# alloc T_openssl [] ;;
          pri <-! h_bytes q ;;
          e <-? h_evp_private P pri else hret tt ;;
          m <-! h_bytes x ;;
          match p_sign P d pri m s with
          | None => h_digest_ctx_destroy ctx e ;;; hret None
          | Some sg =>
              b <-? h_buffer_create sg else h_digest_ctx_destroy ctx e ;;
              h_digest_ctx_destroy ctx e ;;;
              r <-? h_ecdsa_result_create (hkey_curve k) d (Some b) else h_buffer_destroy (Some b) ;;
              hret (Some r)
          end
      end
  | _, _ => hret None
  end.
(* openssl_suite.c:917-940 with 268-301 *)
Definition h_ec_verify (sig : option hsig) (key : option hkey) (data : option hbuf) : H bool :=
  match sig, key, data with
  | Some sg, Some k, Some x =>
      touch (hsig_addr sg) ;;;
      touch (hkey_addr k) ;;;
      ctx <-# alloc T_openssl [] ;;
      pub <-! h_bytes (hkey_pub k) ;;
      o <-! h_evp_public P pub ;;
      match o with
      | None => free ctx ;;; hret false
      | Some e =>
          m <-! h_bytes x ;;
          sb <-! h_bytes (hsig_data sg) ;;
          h_digest_ctx_destroy ctx e ;;;
          hret (p_verify P (hsig_digest sg) (evp_pub e) m sb)
      end
  | _, _, _ => hret false
  end.
(* openssl_suite.c:1088-1171 *)
Definition h_gen_shared_secret (local peer : option hkey) : H (option hbuf) :=
  match local, peer with
  | Some l, Some p =>
      touch (hkey_addr l) ;;;
      touch (hkey_addr p) ;;;
      match hkey_pri l with
      | None => hret None
      | Some q =>
          pri <-! h_bytes q ;;
          local_key <-? h_evp_private P pri else hret tt ;;
          pub <-! h_bytes (hkey_pub p) ;;
          peer_key <-? h_evp_public P pub else h_evp_free local_key ;;
          ctx <-? alloc T_openssl [] else (h_evp_free local_key ;;; h_evp_free peer_key) ;;
          let release := h_evp_free local_key ;;; h_evp_free peer_key ;;; free ctx in
          match p_ecdh P pri (evp_pub peer_key) with
          | None => release ;;; hret None
          | Some secret =>
              b <-? h_buffer_create secret else release ;;
              release ;;;
              hret (Some b)
          end
      end
  | _, _ => hret None
  end.

(* kdf.c:237-267 *)
Definition h_bcrypt_generate_salt (workfactor salt_size : N) (s : nat) : H (option hbuf) :=
  rand_bytes <-? h_crypto_random 16 s else hret tt ;;
  salt_buffer <-? h_buffer_create_empty (salt_size + 8) else h_buffer_destroy (Some rand_bytes) ;;
  r <-! h_bytes rand_bytes ;;
  match p_gensalt P workfactor r with
  | None => h_buffer_destroy (Some rand_bytes) ;;; h_buffer_destroy (Some salt_buffer) ;;; hret None
  | Some setting =>
      let kept := firstn (N.to_nat (salt_size + 7)) setting in
      sb <-! h_fill salt_buffer (fit (salt_size + 8) kept) ;;
      h_buffer_destroy (Some rand_bytes) ;;;
      final <-! h_buffer_copy_section kept 7 salt_size ;;
      h_buffer_destroy (Some sb) ;;;
      hret final
  end.
(* kdf.c:269-327.  The copy of the passphrase is released as it is; it stays behind when an
   empty passphrase is refused. *)
Definition h_bcrypt_generate_hash (a : kdf_algo) (salt : option hbuf) (passphrase : hbuf) : H (option hbuf) :=
  if negb (ka_id a =? 5) then hret None
  else
    salt_buffer <-? h_buffer_create_empty 64 else hret tt ;;
    match salt with
    | None => hub
    | Some x =>
        sl <-! h_bytes x ;;
        if negb ((1 <=? blen sl) && (7 + blen sl <=? 64)) then h_buffer_destroy (Some salt_buffer) ;;; hret None
        else
          sb <-! h_fill salt_buffer (fit 64 (bcrypt_header ++ sl)) ;;
          p <-! h_bytes passphrase ;;
          final <-? h_buffer_create_empty (blen p + 1) else h_buffer_destroy (Some sb) ;;
          if blen p =? 0 then h_buffer_destroy (Some sb) ;;; hret None
          else
            pf <-! h_fill final (p ++ [x00]) ;;
            if negb (7 + blen sl <? 64) then hub
            else
              match p_crypt P (until_nul p) (until_nul (bcrypt_header ++ sl)) with
              | None => h_buffer_destroy (Some pf) ;;; h_buffer_destroy (Some sb) ;;; hret None
              | Some out =>
                  h_buffer_destroy (Some pf) ;;;
                  hash_buffer <-! h_buffer_create (until_nul out) ;;
                  h_buffer_destroy (Some sb) ;;;
                  hret hash_buffer
              end
    end.
(* kdf.c:329-355 *)
Definition h_scrypt_generate_hash (a : kdf_algo) (salt : option hbuf) (passphrase : hbuf) : H (option hbuf) :=
  hash_buffer <-? h_buffer_create_empty (ka_output_size a) else hret tt ;;
  match salt with
  | None => hub
  | Some x =>
      p <-! h_bytes passphrase ;;
      sl <-! h_bytes x ;;
      let cp := N.land (ka_cost a) 255 in
      let r := N.land (N.shiftr (ka_cost a) 8) 255 in
      let n := N.shiftl 1 (N.shiftr (ka_cost a) 16) in
      match p_scrypt P p sl n r cp (ka_output_size a) with
      | None => h_buffer_destroy (Some hash_buffer) ;;; hret None
      | Some h => b <-! h_fill hash_buffer h ;; hret (Some b)
      end
  end.
(* kdf.c:357-393 *)
Definition h_hkdf_generate_hash (a : kdf_algo) (salt info : option hbuf) (passphrase : hbuf) : H (option hbuf) :=
  if ka_id a =? 6 then h_hkdf_internal (Some passphrase) salt info SHA256 (ka_output_size a) false
  else if ka_id a =? 7 then h_hkdf_internal (Some passphrase) salt info SHA384 (ka_output_size a) false
  else if ka_id a =? 8 then h_hkdf_internal (Some passphrase) salt info SHA512 (ka_output_size a) false
  else if ka_id a =? 9 then h_hkdf_internal (Some passphrase) None info SHA512 (ka_output_size a) true
  else hret None.
(* kdf.c:395-406 *)
Definition h_kdf_algo_generate_salt (a : kdf_algo) (s : nat) : H (option hbuf) :=
  match ka_kind a with
  | KDF_SCRYPT | KDF_HMAC_SHA2 => h_crypto_random (ka_salt_size a) s
  | KDF_BCRYPT => h_bcrypt_generate_salt (ka_cost a) (ka_salt_size a) s
  end.
(* kdf.c:408-424 *)
Definition h_kdf_algo_hash (a : kdf_algo) (salt info : option hbuf) (passphrase : hbuf) : H (option hbuf) :=
  match ka_kind a with
  | KDF_SCRYPT => h_scrypt_generate_hash a salt passphrase
  | KDF_BCRYPT => h_bcrypt_generate_hash a salt passphrase
  | KDF_HMAC_SHA2 => h_hkdf_generate_hash a salt info passphrase
  end.
(* kdf.c:142-162 of a structure that may be on the stack *)
Definition h_kdf_meta_copy_of (a : kdf_algo) (salt info : option hbuf) : H (option hkm) :=
  s <-? h_buffer_copy salt for salt else hret tt ;;
  i <-? h_buffer_copy info for info else h_buffer_destroy s ;;
  h_kdf_meta_create a s i.
(* kdf.c:449-469, after the tests for NULL.  The hash is released as it is when the meta data
   cannot be copied; both stay behind when the result cannot be made. *)
Definition h_perform_kdf_with (a : kdf_algo) (salt info : option hbuf) (passphrase : hbuf) : H (option hkr) :=
  hash_output <-? h_kdf_algo_hash a salt info passphrase else hret tt ;;
  result_meta <-? h_kdf_meta_copy_of a salt info else h_buffer_destroy (Some hash_output) ;;
  h_kdf_result_create (Some result_meta) (Some hash_output).
Definition h_perform_kdf_meta (meta : option hkm) (passphrase : option hbuf) : H (option hkr) :=
  match meta, passphrase with
  | Some m, Some p => touch (hkm_addr m) ;;; h_perform_kdf_with (hkm_algo m) (hkm_salt m) (hkm_info m) p
  | _, _ => hret None
  end.
(* kdf.c:426-447 *)
Definition h_perform_kdf (a : kdf_algo) (passphrase : option hbuf) (s : nat) : H (option hkr) :=
  match passphrase with
  | None => hret None
  | Some p =>
      salt <-? h_kdf_algo_generate_salt a s else hret tt ;;
      r <-! h_perform_kdf_with a (Some salt) None p ;;
      h_buffer_destroy (Some salt) ;;;
      hret r
  end.

(* crypto_engine.c:48-71 *)
Definition h_cipher_key_from_kdf (r : hkr) (c : cipher) : H (option hck) :=
  touch (hkr_addr r) ;;;
  b <-! h_bytes (hkr_hash r) ;;
  if negb (blen b =? key_len c) then hret None
  else
    k <-? h_buffer_copy (Some (hkr_hash r)) else hret tt ;;
    n <-? h_cipher_key_create c (Some k) else h_buffer_destroy_zero (Some k) ;;
    hret (Some n).
(* crypto_engine.c:73-122 *)
Definition h_kdf_cipher (a : kdf_algo) (c : cipher) (value passphrase : option hbuf) (s : nat) : H (option hbuf) :=
  match value, passphrase with
  | Some v, Some p =>
      if negb (kdf_kind_eqb (ka_kind a) KDF_SCRYPT) || negb (is_authenticated c) || negb (ka_output_size a =? key_len c) then hret None
      else
        kdf_result <-? h_perform_kdf a (Some p) s else hret tt ;;
        touch (hkr_addr kdf_result) ;;;
        ciphered <-? h_encrypt_with v None c (hkr_hash kdf_result) None (S s) else h_kdf_result_destroy (Some kdf_result) ;;
        ser <-! h_cipher_result_serialize (Some ciphered) ;;
        h_cipher_result_destroy (Some ciphered) ;;;
        match ser with
        | None => h_kdf_result_destroy (Some kdf_result) ;;; hret None
        | Some x =>
            touch (hkr_addr kdf_result) ;;;
            kdf_meta <-! h_kdf_meta_serialize (Some (hkr_meta kdf_result)) ;;
            h_kdf_result_destroy (Some kdf_result) ;;;
            match kdf_meta with
            | None => h_buffer_destroy (Some x) ;;; hret None
            | Some m =>
                mb <-! h_bytes m ;;
                xb <-! h_bytes x ;;
                final <-! h_concat (Some mb) (Some xb) ;;
                h_buffer_destroy (Some x) ;;;
                h_buffer_destroy (Some m) ;;;
                hret final
            end
        end
  | _, _ => hret None
  end.
(* crypto_engine.c:124-174.  The result of the key derivation is not released when what follows
   the meta data is not a ciphertext. *)
Definition h_kdf_decipher (input passphrase : option hbuf) (draft : bytes) : H (option hbuf) :=
  match input, passphrase with
  | Some i, Some p =>
      b <-! h_bytes i ;;
      meta_size <-: kdf_meta_size_with_buffer (Some b) ;;
      if (meta_size =? 0) || (blen b <=? meta_size) then hret None
      else
        meta <-? h_kdf_meta_from_bytes b else hret tt ;;
        o <-! h_perform_kdf_meta (Some meta) (Some p) ;;
        h_kdf_meta_destroy (Some meta) ;;;
        match o with
        | None => hret None
        | Some kdf_result =>
            r <-? h_cipher_result_from_bytes (skipn (N.to_nat meta_size) b) else hret tt ;;
            touch (hcr_addr r) ;;;
            k <-! h_cipher_key_from_kdf kdf_result (hcr_cipher r) ;;
            h_kdf_result_destroy (Some kdf_result) ;;;
            match k with
            | None => h_cipher_result_destroy (Some r) ;;; hret None
            | Some key =>
                decoded <-! h_aes256_decrypt (Some r) None (Some key) true draft ;;
                h_cipher_result_destroy (Some r) ;;;
                h_cipher_key_destroy (Some key) ;;;
                hret decoded
            end
        end
  | _, _ => hret None
  end.

End Engine.
