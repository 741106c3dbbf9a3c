(* The external functions the library calls (OpenSSL, libscrypt, bcrypt), as a record of
   arbitrary functions.  Nothing is assumed about them here; each theorem names the laws it
   needs, and Proofs/ToyPrims.v shows one concrete record that satisfies all of them. *)
From Verif.Base Require Import Bytes.
From Verif.Model Require Import Cipher Ecdsa.
Local Open Scope N_scope.

Record prims := {
  (* EVP aes-256-gcm: key iv aad plaintext -> ciphertext, tag *)
  p_gcm_enc : bytes -> bytes -> bytes -> bytes -> bytes * bytes;
  (* EVP aes-256-gcm: key iv aad ciphertext tag -> plaintext unless the tag is wrong *)
  p_gcm_dec : bytes -> bytes -> bytes -> bytes -> bytes -> option bytes;
  (* EVP aes-256-ctr, both directions: key iv data *)
  p_ctr : bytes -> bytes -> bytes -> bytes;
  p_sha : digest -> bytes -> bytes;
  (* HMAC: digest key message *)
  p_hmac : digest -> bytes -> bytes -> bytes;
  (* HKDF: digest salt key info length *)
  p_hkdf : digest -> bytes -> bytes -> bytes -> N -> option bytes;
  (* HKDF, expand only: digest key info length *)
  p_hkdf_expand : digest -> bytes -> bytes -> N -> option bytes;
  (* libscrypt_scrypt: passphrase salt N r p length *)
  p_scrypt : bytes -> bytes -> N -> N -> N -> N -> option bytes;
  (* crypt_gensalt_rn: work factor, random bytes -> the 29 characters of the setting *)
  p_gensalt : N -> bytes -> option bytes;
  (* crypt_rn: passphrase and setting (both up to the first NUL) -> the 60 characters *)
  p_crypt : bytes -> bytes -> option bytes;
  (* RAND_bytes: outcome of draw i for a length *)
  p_rand : nat -> N -> option bytes;
  (* EC_KEY_generate_key: outcome of draw i, as public octets and private DER *)
  p_ec_gen : nat -> option (bytes * bytes);
  (* d2i_ECPrivateKey of a P-521 key: public octets and DER as written again *)
  p_d2i : bytes -> option (bytes * bytes);
  (* o2i_ECPublicKey on P-521: the octets as written again *)
  p_o2i : bytes -> option bytes;
  (* EC_POINT_is_at_infinity of public octets *)
  p_inf : bytes -> bool;
  (* EVP_DigestSign: digest, private DER, message, draw number *)
  p_sign : digest -> bytes -> bytes -> nat -> option bytes;
  (* EVP_DigestVerify: digest, public octets, message, signature *)
  p_verify : digest -> bytes -> bytes -> bytes -> bool;
  (* EVP_PKEY_derive (ECDH): private DER, public octets *)
  p_ecdh : bytes -> bytes -> option bytes
}.

(* Laws *)
Definition aead_ok (P : prims) : Prop := forall k iv aad pt,
  length (fst (p_gcm_enc P k iv aad pt)) = length pt /\
  length (snd (p_gcm_enc P k iv aad pt)) = 16%nat /\
  p_gcm_dec P k iv aad (fst (p_gcm_enc P k iv aad pt)) (snd (p_gcm_enc P k iv aad pt)) = Some pt.
Definition aead_len_ok (P : prims) : Prop := forall k iv aad ct tag pt,
  p_gcm_dec P k iv aad ct tag = Some pt -> length pt = length ct.
Definition ctr_ok (P : prims) : Prop := forall k iv d,
  length (p_ctr P k iv d) = length d /\ p_ctr P k iv (p_ctr P k iv d) = d.
Definition sha_ok (P : prims) : Prop := forall d m, blen (p_sha P d m) = digest_size d.
Definition hmac_ok (P : prims) : Prop := forall d k m, blen (p_hmac P d k m) = digest_size d.
Definition hkdf_ok (P : prims) : Prop :=
  (forall d salt k info n b, p_hkdf P d salt k info n = Some b -> blen b = n) /\
  (forall d k info n b, p_hkdf_expand P d k info n = Some b -> blen b = n).
Definition scrypt_ok (P : prims) : Prop := forall pw salt n r p len b, p_scrypt P pw salt n r p len = Some b -> blen b = len.
Definition rand_ok (P : prims) : Prop := forall i n b, p_rand P i n = Some b -> blen b = n.
(* a private key and its public key *)
Definition pairs (P : prims) (pub pri : bytes) : Prop := exists der, p_d2i P pri = Some (pub, der).
Definition sign_ok (P : prims) : Prop := forall d pub pri msg i s,
  pairs P pub pri -> p_sign P d pri msg i = Some s ->
  p_verify P d pub msg s = true /\ (1 <= length s <= 141)%nat.
Definition ec_ok (P : prims) : Prop :=
  (forall i pub pri, p_ec_gen P i = Some (pub, pri) -> p_d2i P pri = Some (pub, pri)) /\
  (forall pri pub der, p_d2i P pri = Some (pub, der) ->
     p_d2i P der = Some (pub, der) /\ p_o2i P pub = Some pub /\ blen der <= 1024 /\ 0 < blen der) /\
  (forall b o, p_o2i P b = Some o -> p_o2i P o = Some o /\ 0 < blen o <= 133).
(* generated keys are never the point at infinity *)
Definition gen_ok (P : prims) : Prop := forall i pub pri, p_ec_gen P i = Some (pub, pri) -> p_inf P pub = false /\ blen pub = 133.
Definition ecdh_ok (P : prims) : Prop :=
  (forall pub1 pri1 pub2 pri2, pairs P pub1 pri1 -> pairs P pub2 pri2 -> p_ecdh P pri1 pub2 = p_ecdh P pri2 pub1) /\
  (forall pri pub s, p_ecdh P pri pub = Some s -> 0 < blen s <= 1024).
