(* Wire formats of cipher results, cipher keys, signatures and KDF parameters, written out. *)
From Verif.Base Require Import Bytes.
From Verif.Model Require Import Cipher Ecdsa Kdf.
From Verif.Spec Require Import BufferSpec.
Local Open Scope N_scope.

Definition bytes_of (o : option bytes) : bytes := match o with Some b => b | None => [] end.
Definition not_empty (o : option bytes) : Prop := o <> Some [].

(* A cipher result is well formed: nonce and tag of the cipher's size, tag exactly for GCM,
   ciphertext absent or non-empty *)
Definition good_result (r : cipher_result) : Prop :=
  match cr_cipher r with
  | AES256_GCM => length (cr_iv r) = 12%nat /\ exists t, cr_tag r = Some t /\ length t = 16%nat
  | AES256_CTR => length (cr_iv r) = 16%nat /\ cr_tag r = None
  end /\ not_empty (cr_text r).
(* byte 0 or 1, nonce, tag if any, ciphertext if any *)
Definition result_wire (r : cipher_result) : bytes :=
  match cr_cipher r with AES256_GCM => x00 | AES256_CTR => x01 end
  :: cr_iv r ++ bytes_of (cr_tag r) ++ bytes_of (cr_text r).

Definition good_key (k : cipher_key) : Prop := length (ck_data k) = 32%nat.
Definition key_wire (k : cipher_key) : bytes :=
  match ck_cipher k with AES256_GCM => x00 | AES256_CTR => x01 end :: ck_data k.

(* signature: curve and digest nibbles, number of padding bytes, padding, DER signature; 143 bytes *)
Definition good_sig (s : ecdsa_result) : Prop := (1 <= length (es_sig s) <= 141)%nat.
Definition sig_wire (s : ecdsa_result) : bytes :=
  match es_digest s with SHA256 => x01 | SHA384 => x02 | SHA512 => x03 end
  :: n2b (N.of_nat (141 - length (es_sig s)))
  :: repeat x00 (141 - length (es_sig s)) ++ es_sig s.

(* KDF parameters that have a wire form: scrypt and bcrypt with a salt of the right size *)
Definition good_kdf_meta (m : kdf_meta) : Prop :=
  In (km_algo m) [KDF_SCRYPT_2_17; KDF_SCRYPT_2_18; KDF_SCRYPT_2_19; KDF_SCRYPT_2_20; KDF_BCRYPT_15] /\
  km_info m = None /\ exists s, km_salt m = Some s /\ blen s = ka_salt_size (km_algo m).
Definition kdf_wire (m : kdf_meta) : bytes := n2b (ka_id (km_algo m)) :: bytes_of (km_salt m).
