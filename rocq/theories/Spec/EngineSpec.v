(* What it means that some bytes were opened under authentication. *)
From Verif.Base Require Import Bytes.
From Verif.Model Require Import Cipher Ecdsa Kdf Prims.
Local Open Scope N_scope.

(* plaintext [v] came out of AES-256-GCM decryption of [r] under [key] and [aad] with the
   tag accepted, and [r] names the authenticated cipher *)
Definition opened (P : prims) (r : cipher_result) (key aad v : bytes) : Prop :=
  cr_cipher r = AES256_GCM /\
  exists ct tag, cr_text r = Some ct /\ cr_tag r = Some tag /\ length tag = 16%nat /\
    p_gcm_dec P key (cr_iv r) aad ct tag = Some v.

Definition is_scrypt (a : kdf_algo) : Prop :=
  In a [KDF_SCRYPT_2_17; KDF_SCRYPT_2_18; KDF_SCRYPT_2_19; KDF_SCRYPT_2_20].
