(* C14, C19 and the engine part of C15 *)
From Verif.Base Require Import Bytes Monad.
From Verif.Model Require Import Buffer Cipher Ecdsa Kdf Prims Engine.
From Verif.Spec Require Import BufferSpec CodecSpec EngineSpec.
From Verif.Proofs Require Import BytesFacts CodecFacts EngineFacts ToyPrims.
Local Open Scope N_scope.

(* C14: whatever encryption returns (with a caller's or a random IV) decrypts to the plaintext
   and is a well-formed result, so that C12 gives the same after a serialization round trip.
   Only-authenticated decryption of course needs the authenticated cipher. *)
Theorem C14_decrypt_encrypt : forall P pt aad key iv only_auth s r s',
  ctr_ok P -> aead_ok P -> pt <> [] -> (only_auth = true -> ck_cipher key = AES256_GCM) ->
  aes256_encrypt P (Some pt) aad (Some key) iv s = (Val r, s') ->
  aes256_decrypt P (Some r) aad (Some key) only_auth = Val pt.
Proof. exact (fun P pt aad key iv oa s r s' => decrypt_encrypt P pt aad key iv s r s' oa). Qed.
Print Assumptions C14_decrypt_encrypt.
Theorem C14_through_serialization : forall P pt aad key iv only_auth s r s' b,
  ctr_ok P -> aead_ok P -> pt <> [] -> (only_auth = true -> ck_cipher key = AES256_GCM) ->
  aes256_encrypt P (Some pt) aad (Some key) iv s = (Val r, s') ->
  cipher_result_serialize (Some r) = Some b ->
  exists r', cipher_result_from_buffer (Some b) = Val r' /\
    aes256_decrypt P (Some r') aad (Some key) only_auth = Val pt.
Proof. exact decrypt_serialized. Qed.
Print Assumptions C14_through_serialization.
(* C14: and encryption does succeed: right key and IV sizes, AAD only with the authenticated
   cipher, sizes the library can hold, and a random generator that answers *)
Theorem C14_encrypt_succeeds : forall P pt aad key iv s, aead_ok P -> good_key key -> blen pt < library_limit ->
  (aad <> None -> ck_cipher key = AES256_GCM) -> blen (bytes_of aad) <= library_limit ->
  match iv with
  | Some v => blen v = iv_len (ck_cipher key)
  | None => exists v, p_rand P s (iv_len (ck_cipher key)) = Some v /\ blen v = iv_len (ck_cipher key)
  end ->
  exists r s', aes256_encrypt P (Some pt) aad (Some key) iv s = (Val r, s').
Proof. exact encrypt_succeeds. Qed.
Print Assumptions C14_encrypt_succeeds.
(* C14 for an empty plaintext is false: it is encrypted, and can never be decrypted *)
Theorem C14_empty_plaintext_refuted : exists P key r s', ctr_ok P /\ aead_ok P /\
  aes256_encrypt P (Some []) None (Some key) None 0%nat = (Val r, s') /\
  aes256_decrypt P (Some r) None (Some key) true = Null.
Proof.
  exists toy, {| ck_cipher := AES256_GCM; ck_data := repeat x01 32 |}. eexists. eexists.
  split; [exact toy_ctr|]. split; [exact toy_aead|]. split; [vm_compute; reflexivity|vm_compute; reflexivity].
Qed.
Print Assumptions C14_empty_plaintext_refuted.
(* an IV shorter than the cipher's is read past its end *)
Theorem C14_short_iv_refuted : exists P key iv, blen iv = 11 /\
  aes256_encrypt P (Some [x41]) None (Some key) (Some iv) 0%nat = (UB, 0%nat).
Proof. exists toy, {| ck_cipher := AES256_GCM; ck_data := repeat x01 32 |}, (repeat x00 11). split; vm_compute; reflexivity. Qed.
Print Assumptions C14_short_iv_refuted.
Example C14_case : exists r s',
  aes256_encrypt toy (Some [x41; x42]) (Some [x01]) (Some {| ck_cipher := AES256_GCM; ck_data := repeat x01 32 |}) None 0%nat = (Val r, s') /\
  aes256_decrypt toy (Some r) (Some [x01]) (Some {| ck_cipher := AES256_GCM; ck_data := repeat x01 32 |}) true = Val [x41; x42] /\
  aes256_decrypt toy (Some r) (Some [x02]) (Some {| ck_cipher := AES256_GCM; ck_data := repeat x01 32 |}) true = Null.
Proof. eexists. eexists. split; [vm_compute; reflexivity|]. split; vm_compute; reflexivity. Qed.

(* C15, engine: unauthenticated results are refused whatever the key and the rest *)
Theorem C15_decrypt_refuses_unauthenticated : forall P r aad key, cr_cipher r <> AES256_GCM ->
  aes256_decrypt P (Some r) aad key true = Null.
Proof. exact decrypt_only_auth. Qed.
Print Assumptions C15_decrypt_refuses_unauthenticated.
(* ... and what is accepted was authenticated by GCM under that key *)
Theorem C15_decrypt_authenticated : forall P r aad key v, good_key key -> good_result r ->
  (forall x, aad = Some x -> blen x <= INT_MAX) ->
  aes256_decrypt P (Some r) aad (Some key) true = Val v ->
  ck_cipher key = AES256_GCM /\ opened P r (ck_data key) (bytes_of aad) v.
Proof. exact decrypt_opened. Qed.
Print Assumptions C15_decrypt_authenticated.
(* C15, passphrase-wrapped data: every byte string an attacker supplies *)
Theorem C15_kdf_decipher_authenticated : forall P b p v, kdf_decipher P (Some b) (Some p) = Val v ->
  exists m r key, good_kdf_meta m /\ b = (kdf_wire m ++ result_wire r)%list /\ good_result r /\
    kdf_algo_hash P m p = Val key /\ blen key = 32 /\ opened P r key [] v.
Proof. exact kdf_decipher_opened. Qed.
Print Assumptions C15_kdf_decipher_authenticated.
Example C15_case : aes256_decrypt toy
    (Some {| cr_cipher := AES256_CTR; cr_iv := repeat x00 16; cr_text := Some [x41]; cr_tag := None |}) None
    (Some {| ck_cipher := AES256_CTR; ck_data := repeat x01 32 |}) true = Null /\
  aes256_decrypt toy
    (Some {| cr_cipher := AES256_CTR; cr_iv := repeat x00 16; cr_text := Some [x41]; cr_tag := None |}) None
    (Some {| ck_cipher := AES256_CTR; ck_data := repeat x01 32 |}) false = Val [x33].
Proof. split; vm_compute; reflexivity. Qed.

(* C19: for the four scrypt strengths, any random choices *)
Theorem C19_unwrap_wrap : forall P a c v p s b s', is_scrypt a -> ctr_ok P -> aead_ok P -> v <> [] ->
  kdf_cipher P a c (Some v) (Some p) s = (Val b, s') ->
  kdf_decipher P (Some b) (Some p) = Val v.
Proof. exact kdf_unwrap. Qed.
Print Assumptions C19_unwrap_wrap.
(* C19: wrapping succeeds when the generator, scrypt and sizes allow it *)
Theorem C19_wrap_succeeds : forall P a v p s salt iv key, is_scrypt a -> aead_ok P -> ctr_ok P ->
  v <> [] -> blen v + 1000 <= library_limit ->
  p_rand P s 16 = Some salt -> blen salt = 16 -> p_rand P (S s) 12 = Some iv -> blen iv = 12 ->
  kdf_algo_hash P {| km_algo := a; km_salt := Some salt; km_info := None |} p = Val key -> blen key = 32 ->
  exists b, kdf_cipher P a AES256_GCM (Some v) (Some p) s = (Val b, S (S s)).
Proof. exact kdf_wrap_succeeds. Qed.
Print Assumptions C19_wrap_succeeds.
Example C19_case : exists b s', kdf_cipher toy KDF_SCRYPT_2_17 AES256_GCM (Some [x41; x42]) (Some [x70; x77]) 3%nat = (Val b, s') /\
  kdf_decipher toy (Some b) (Some [x70; x77]) = Val [x41; x42] /\
  kdf_decipher toy (Some b) (Some [x70; x78]) = Null.
Proof. eexists. eexists. split; [vm_compute; reflexivity|]. split; vm_compute; reflexivity. Qed.
