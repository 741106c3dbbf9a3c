(* Model of the default engine: openssl_suite.c, crypto_engine.c and the hashing part of kdf.c.
   Simplification: OpenSSL context allocations do not fail; OpenSSL calls that can fail on
   arguments the library passes are the options in [prims]. *)
From Verif.Base Require Import Bytes Monad.
From Verif.Model Require Import Buffer CString Cipher Ecdsa Kdf Prims.
Local Open Scope N_scope.
Local Open Scope res_scope.
Local Open Scope m_scope.

Definition INT_MAX : N := 2147483647.

Section Engine.
Context (P : prims).

(* openssl_suite.c:354-369; the buffer is used without a NULL test *)
Definition crypto_random (len : N) : M bytes :=
  if INT_MAX <? len then mres Null
  else if negb (size_ok len) then mres UB
  else fun s => (lift (p_rand P s len), S s).

(* openssl_suite.c:371-386 *)
Definition cipher_key_random (c : cipher) : M cipher_key :=
  k <-- crypto_random (key_len c) ;;
  mlift (cipher_key_create c (Some k)).

(* openssl_suite.c:388-498.  A caller IV shorter than the cipher's is read past its end.
   Lengths are passed to OpenSSL as int: an AAD above INT_MAX is undefined. *)
Definition aes256_encrypt (plaintext aad : option bytes) (key : option cipher_key) (iv : option bytes) : M cipher_result :=
  match plaintext, key with
  | Some pt, Some k =>
      let c := ck_cipher k in
      if (match aad with Some _ => negb (is_authenticated c) | None => false end) then mres Null
      else if negb (blen (ck_data k) =? key_len c) || (INT_MAX <? blen pt) then mres Null
      else
        iv_f <-- (match iv with Some v => mret (buffer_copy (Some v)) | None => mtry (crypto_random (iv_len c)) end) ;;
        match iv_f with
        | None => mres Null
        | Some v =>
            if negb (size_ok (blen pt + 1)) then mres Null
            else if blen v <? iv_len c then mres UB
            else if INT_MAX <? blen (obytes aad) then mres UB
            else
              let n := firstn (N.to_nat (iv_len c)) v in
              match c with
              | AES256_GCM =>
                  let ct := p_gcm_enc P (ck_data k) n (obytes aad) pt in
                  mlift (cipher_result_create c (Some v) (Some (fst ct)) (Some (snd ct)))
              | AES256_CTR =>
                  mlift (cipher_result_create c (Some v) (Some (p_ctr P (ck_data k) n pt)) None)
              end
        end
  | _, _ => mres Null
  end.

(* openssl_suite.c:500-605.  Key and IV lengths are not checked: OpenSSL reads key_len and
   iv_len bytes.  An AAD above INT_MAX is skipped. *)
Definition aes256_decrypt (cipher_result : option cipher_result) (aad : option bytes) (key : option cipher_key)
    (only_auth_ciphers : bool) : res bytes :=
  match cipher_result, key with
  | Some r, Some k =>
      match cr_text r with
      | None => Null
      | Some ct =>
          let c := cr_cipher r in
          if only_auth_ciphers && negb (is_authenticated c) then Null
          else if (match aad with Some _ => negb (is_authenticated c) | None => false end) then Null
          else if negb (cipher_id (ck_cipher k) =? cipher_id c) || (INT_MAX <? blen ct) then Null
          else if is_authenticated c && (match cr_tag r with Some t => negb (blen t =? auth_tag_len c) | None => true end) then Null
          else if negb (size_ok (blen ct)) then Null
          else if (blen (ck_data k) <? key_len c) || (blen (cr_iv r) <? iv_len c) then UB
          else
            let kd := firstn (N.to_nat (key_len c)) (ck_data k) in
            let n := firstn (N.to_nat (iv_len c)) (cr_iv r) in
            let a := match aad with Some x => if blen x <=? INT_MAX then x else [] | None => [] end in
            match c with
            | AES256_GCM => lift (p_gcm_dec P kd n a ct (obytes (cr_tag r)))
            | AES256_CTR => Val (p_ctr P kd n ct)
            end
      end
  | _, _ => Null
  end.

(* openssl_suite.c:623-665 *)
Definition sha2 (buffer salt : option bytes) (d : digest) : option bytes :=
  match buffer with
  | None => None
  | Some b => Some (p_sha P d (b ++ obytes salt)%list)
  end.

(* openssl_suite.c:1174-1205 *)
Definition hmac_create (data hmac_key : option bytes) (d : digest) : option bytes :=
  match data, hmac_key with
  | Some x, Some k =>
      let out := p_hmac P d k x in
      if negb (blen out =? digest_size d) then None else Some out
  | _, _ => None
  end.
(* openssl_suite.c:1207-1223 *)
Definition hmac_verify (data hmac_key : option bytes) (d : digest) (expected : option bytes) : bool :=
  match expected, hmac_create data hmac_key d with
  | Some e, Some c => buffer_is_equal (Some c) (Some e)
  | _, _ => false
  end.

(* openssl_suite.c:1583-1697 *)
Definition hkdf_internal (ikm salt info : option bytes) (d : digest) (out_len : N) (expand_only : bool) : option bytes :=
  match ikm with
  | None => None
  | Some k =>
      if (match info with Some i => 1024 <? blen i | None => false end) then None
      else if (match salt with Some s => INT_MAX <? blen s | None => false end) then None
      else if INT_MAX <? blen k then None
      else if negb (size_ok out_len) then None
      else if expand_only then p_hkdf_expand P d k (obytes info) out_len
      else p_hkdf P d (obytes salt) k (obytes info) out_len
  end.
(* openssl_suite.c:1699-1702; the length is the size field of the digest, which kdf.c changes *)
Definition hkdf (ikm salt info : option bytes) (d : digest) (size : N) : option bytes := hkdf_internal ikm salt info d size false.
(* openssl_suite.c:1704-1707 *)
Definition hkdf_expand (ikm info : option bytes) (d : digest) (out_len : N) : option bytes :=
  hkdf_internal ikm None info d out_len true.

(* Elliptic curve keys *)
(* openssl_suite.c:129-153; [octets] is what i2o_ECPublicKey writes *)
Definition ec_pub_key_to_buffer (c : curve) (octets : bytes) : option bytes := buffer_create (n2b (curve_id c) :: octets).
(* openssl_suite.c:155-171 *)
Definition ec_pri_key_to_buffer (der : bytes) : option bytes := buffer_create der.
(* openssl_suite.c:178-211: the public octets as OpenSSL holds them *)
Definition evp_public_key_from_buffer (b : bytes) : option bytes :=
  match b with
  | c :: (_ :: _) as rest => match curve_find (b2n c) with Some P521 => p_o2i P rest | None => None end
  | _ => None
  end.
(* openssl_suite.c:723-773 *)
Definition ec_rand_key (c : curve) : M ec_key := fun s =>
  match p_ec_gen P s with
  | None => (Null, S s)
  | Some (pub, pri) =>
      (match ec_pri_key_to_buffer pri, ec_pub_key_to_buffer c pub with
       | Some q, Some p => lift (ec_key_create c (Some p) (Some q))
       | _, _ => Null
       end, S s)
  end.
(* openssl_suite.c:807-893 *)
Definition ec_key_import (buffer : option bytes) (is_private : bool) : option ec_key :=
  match buffer with
  | None => None
  | Some b =>
      match (if is_private then match p_d2i P b with Some (pub, der) => Some (pub, Some der) | None => None end
             else match evp_public_key_from_buffer b with Some pub => Some (pub, None) | None => None end) with
      | None => None
      | Some (pub, der) =>
          if p_inf P pub then None
          else match ec_pub_key_to_buffer P521 pub with
               | None => None
               | Some public_key =>
                   match der with
                   | None => ec_key_create P521 (Some public_key) None
                   | Some x => match ec_pri_key_to_buffer x with
                               | None => None
                               | Some private_key => ec_key_create P521 (Some public_key) (Some private_key)
                               end
                   end
               end
      end
  end.
(* openssl_suite.c:293-352, 895-915 *)
Definition ec_sign (key : option ec_key) (data : option bytes) (d : digest) : M ecdsa_result :=
  match key, data with
  | Some k, Some x =>
      match ek_pri k with
      | None => mres Null
      | Some pri =>
          fun s => match p_d2i P pri with
                   | None => (Null, s)
                   | Some _ => (lift (match p_sign P d pri x s with
                                      | Some sg => ecdsa_result_create (ek_curve k) d (Some sg)
                                      | None => None
                                      end), S s)
                   end
      end
  | _, _ => mres Null
  end.
(* openssl_suite.c:917-940 *)
Definition ec_verify (sig : option ecdsa_result) (key : option ec_key) (data : option bytes) : bool :=
  match sig, key, data with
  | Some sg, Some k, Some x =>
      match evp_public_key_from_buffer (ek_pub k) with
      | None => false
      | Some pub => p_verify P (es_digest sg) pub x (es_sig sg)
      end
  | _, _, _ => false
  end.
(* openssl_suite.c:1088-1171 *)
Definition gen_shared_secret (local peer : option ec_key) : option bytes :=
  match local, peer with
  | Some l, Some p =>
      match ek_pri l with
      | None => None
      | Some pri =>
          match p_d2i P pri with
          | None => None
          | Some _ =>
              match evp_public_key_from_buffer (ek_pub p) with
              | None => None
              | Some pub => match p_ecdh P pri pub with Some s => buffer_create s | None => None end
              end
          end
      end
  | _, _ => None
  end.

(* kdf.c *)
Definition bcrypt_header : bytes := [x24; x32; x79; x24; x31; x35; x24].
(* kdf.c:237-267 *)
Definition bcrypt_generate_salt (workfactor salt_size : N) : M bytes :=
  r <-- crypto_random 16 ;;
  setting <-~ p_gensalt P workfactor r ;;
  (* the buffer of salt_size + 8 bytes, minus the NUL, holds the setting *)
  mlift (buffer_copy_section (firstn (N.to_nat (salt_size + 7)) setting) 7 salt_size).
(* what a C function sees of a buffer: the bytes before the first NUL *)
Fixpoint until_nul (b : bytes) : bytes :=
  match b with [] => [] | c :: r => if Byte.eqb c x00 then [] else c :: until_nul r end.
(* kdf.c:269-327; the passphrase and setting are NUL-terminated copies *)
Definition bcrypt_generate_hash (m : kdf_meta) (passphrase : bytes) : res bytes :=
  if negb (ka_id (km_algo m) =? 5) then Null
  else match km_salt m with
       | None => UB
       | Some salt =>
           guard (1 <=? blen salt) && (7 + blen salt <=? 64) ;;
           guard size_ok (blen passphrase + 1) && (1 <=? blen passphrase) ;;
           (* crypt_rn reads the setting up to a NUL; a salt of 57 bytes would leave none *)
           assert (7 + blen salt <? 64) ;;
           out <~ p_crypt P (until_nul passphrase) (until_nul (bcrypt_header ++ salt)%list) ;;
           lift (buffer_create (until_nul out))
       end.
(* kdf.c:329-355 *)
Definition scrypt_generate_hash (m : kdf_meta) (passphrase : bytes) : res bytes :=
  let a := km_algo m in
  guard size_ok (ka_output_size a) ;;
  match km_salt m with
  | None => UB
  | Some salt =>
      let p := N.land (ka_cost a) 255 in
      let r := N.land (N.shiftr (ka_cost a) 8) 255 in
      let n := N.shiftl 1 (N.shiftr (ka_cost a) 16) in
      lift (p_scrypt P passphrase salt n r p (ka_output_size a))
  end.
(* kdf.c:357-393 *)
Definition hkdf_generate_hash (m : kdf_meta) (passphrase : bytes) : option bytes :=
  let a := km_algo m in
  if ka_id a =? 6 then hkdf (Some passphrase) (km_salt m) (km_info m) SHA256 (ka_output_size a)
  else if ka_id a =? 7 then hkdf (Some passphrase) (km_salt m) (km_info m) SHA384 (ka_output_size a)
  else if ka_id a =? 8 then hkdf (Some passphrase) (km_salt m) (km_info m) SHA512 (ka_output_size a)
  else if ka_id a =? 9 then hkdf_expand (Some passphrase) (km_info m) SHA512 (ka_output_size a)
  else None.
(* kdf.c:395-406 *)
Definition kdf_algo_generate_salt (a : kdf_algo) : M bytes :=
  match ka_kind a with
  | KDF_SCRYPT | KDF_HMAC_SHA2 => crypto_random (ka_salt_size a)
  | KDF_BCRYPT => bcrypt_generate_salt (ka_cost a) (ka_salt_size a)
  end.
(* kdf.c:408-424 *)
Definition kdf_algo_hash (m : kdf_meta) (passphrase : bytes) : res bytes :=
  match ka_kind (km_algo m) with
  | KDF_SCRYPT => scrypt_generate_hash m passphrase
  | KDF_BCRYPT => bcrypt_generate_hash m passphrase
  | KDF_HMAC_SHA2 => lift (hkdf_generate_hash m passphrase)
  end.
(* kdf.c:449-469 *)
Definition perform_kdf_meta (m : option kdf_meta) (passphrase : option bytes) : res kdf_result :=
  match m, passphrase with
  | Some x, Some p =>
      h <- kdf_algo_hash x p ;;
      result_meta <~ kdf_meta_copy (Some x) ;;
      lift (kdf_result_create (Some result_meta) (Some h))
  | _, _ => Null
  end.
(* kdf.c:426-447 *)
Definition perform_kdf (a : kdf_algo) (passphrase : option bytes) : M kdf_result :=
  match passphrase with
  | None => mres Null
  | Some p =>
      salt <-- kdf_algo_generate_salt a ;;
      mres (perform_kdf_meta (Some {| km_algo := a; km_salt := Some salt; km_info := None |}) (Some p))
  end.

(* crypto_engine.c *)
(* crypto_engine.c:48-71 *)
Definition cipher_key_from_kdf (r : option kdf_result) (c : cipher) : option cipher_key :=
  match r with
  | None => None
  | Some x =>
      if negb (blen (kr_hash x) =? key_len c) then None
      else match buffer_copy (Some (kr_hash x)) with
           | None => None
           | Some k => cipher_key_create c (Some k)
           end
  end.
(* crypto_engine.c:73-122 *)
Definition kdf_cipher (a : kdf_algo) (c : cipher) (value passphrase : option bytes) : M bytes :=
  match value, passphrase with
  | Some v, Some p =>
      if negb (kdf_kind_eqb (ka_kind a) KDF_SCRYPT) || negb (is_authenticated c) || negb (ka_output_size a =? key_len c)
      then mres Null
      else
        kr <-- perform_kdf a (Some p) ;;
        ciphered <-- aes256_encrypt (Some v) None (Some {| ck_cipher := c; ck_data := kr_hash kr |}) None ;;
        ser <-~ cipher_result_serialize (Some ciphered) ;;
        meta <-~ kdf_meta_serialize (Some (kr_meta kr)) ;;
        mlift (buffer_concat (Some meta) (Some ser))
  | _, _ => mres Null
  end.
(* crypto_engine.c:124-174 *)
Definition kdf_decipher (input passphrase : option bytes) : res bytes :=
  match input, passphrase with
  | Some b, Some p =>
      meta_size <- kdf_meta_size_with_buffer (Some b) ;;
      guard negb ((meta_size =? 0) || (blen b <=? meta_size)) ;;
      meta <- kdf_meta_create_with_buffer (Some b) ;;
      kr <- perform_kdf_meta (Some meta) (Some p) ;;
      r <- cipher_result_from_buffer (Some (skipn (N.to_nat meta_size) b)) ;;
      key <~ cipher_key_from_kdf (Some kr) (cr_cipher r) ;;
      aes256_decrypt (Some r) None (Some key) true
  | _, _ => Null
  end.

End Engine.

(* crypto_engine.c:176-192 *)
Definition digest_matching_cipher (c : cipher) : digest := SHA256.
Definition digest_matching_curve (c : curve) : digest := SHA512.
Definition exchange_cipher_matching_cipher (c : cipher) : cipher := AES256_CTR.
