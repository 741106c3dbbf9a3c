(* Model of ecdh_cipher_ctx.c (src/wickrcrypto/src).
   Simplification: the context pointer is not NULL; its members are passed as arguments. *)
From Verif.Base Require Import Bytes Monad.
From Verif.Model Require Import Buffer Cipher Ecdsa Kdf Prims Engine.
Local Open Scope N_scope.
Local Open Scope res_scope.
Local Open Scope m_scope.

(* ecdh_cipher_ctx.h: wickr_ecdh_cipher_ctx_t without the engine *)
Record ecdh_ctx := { ex_local : ec_key; ex_cipher : cipher }.
(* ecdh_cipher_ctx.c:5-24 *)
Definition ecdh_ctx_create_key (k : option ec_key) (c : cipher) : option ecdh_ctx :=
  match k with None => None | Some x => Some {| ex_local := x; ex_cipher := c |} end.

Section EcdhCipher.
Context (P : prims).
(* ecdh_cipher_ctx.c:26-42 *)
Definition ecdh_ctx_create (crv : curve) (c : cipher) : M ecdh_ctx :=
  k <-- ec_rand_key P crv ;;
  mlift (ecdh_ctx_create_key (Some k) c).
(* ecdh_cipher_ctx.c:44-62 *)
Definition ecdh_ctx_copy (x : option ecdh_ctx) : option ecdh_ctx :=
  match x with
  | None => None
  | Some c => match ec_key_copy (Some (ex_local c)) with None => None | Some k => ecdh_ctx_create_key (Some k) (ex_cipher c) end
  end.
(* ecdh_cipher_ctx.c:94-97: the algorithm with the output length the cipher needs *)
Definition with_output_size (a : kdf_algo) (n : N) : kdf_algo :=
  {| ka_kind := ka_kind a; ka_id := ka_id a; ka_salt_size := ka_salt_size a; ka_output_size := n; ka_cost := ka_cost a |}.
(* ecdh_cipher_ctx.c:77-133 *)
Definition ecdh_gen_cipher_key (x : ecdh_ctx) (remote : option ec_key) (params : option kdf_meta) : res cipher_key :=
  match remote, params with
  | Some r, Some k =>
      if negb (kdf_kind_eqb (ka_kind (km_algo k)) KDF_HMAC_SHA2) then Null
      else
        let meta := {| km_algo := with_output_size (km_algo k) (key_len (ex_cipher x)); km_salt := km_salt k; km_info := km_info k |} in
        secret <~ gen_shared_secret P (Some (ex_local x)) (Some r) ;;
        kr <- perform_kdf_meta P (Some meta) (Some secret) ;;
        key_data <~ buffer_copy (Some (kr_hash kr)) ;;
        lift (cipher_key_create (ex_cipher x) (Some key_data))
  | _, _ => Null
  end.
(* ecdh_cipher_ctx.c:135-156 *)
Definition ecdh_cipher (x : ecdh_ctx) (plaintext : option bytes) (remote : option ec_key) (params : option kdf_meta) : M cipher_result :=
  match plaintext, remote, params with
  | Some p, Some r, Some k =>
      key <-= ecdh_gen_cipher_key x (Some r) (Some k) ;;
      aes256_encrypt P (Some p) None (Some key) None
  | _, _, _ => mres Null
  end.
(* ecdh_cipher_ctx.c:158-184; unauthenticated ciphers are accepted *)
Definition ecdh_decipher (x : ecdh_ctx) (ct : option cipher_result) (remote : option ec_key) (params : option kdf_meta) : res bytes :=
  match ct, remote, params with
  | Some c, Some r, Some k =>
      if negb (cipher_id (cr_cipher c) =? cipher_id (ex_cipher x)) then Null
      else
        key <- ecdh_gen_cipher_key x (Some r) (Some k) ;;
        aes256_decrypt P (Some c) None (Some key) false
  | _, _, _ => Null
  end.
End EcdhCipher.
