(* What the key derivation functions and fingerprint texts are advertised to be. *)
From Coq Require Import Strings.String.
From Verif.Base Require Import Bytes.
From Verif.Model Require Import Cipher Ecdsa Kdf Prims.
From Verif.Spec Require Import TextSpec.
Local Open Scope N_scope.

(* [t] is the C string at the start of [s] *)
Definition c_string (s t : bytes) : Prop := no_nul t /\ (s = t \/ exists rest, s = (t ++ x00 :: rest)%list).

(* the algorithms of kdf.h, by their numbers; the last one has an output size of its own *)
Definition library_algo (a : kdf_algo) : Prop :=
  In a [KDF_SCRYPT_2_17; KDF_SCRYPT_2_18; KDF_SCRYPT_2_19; KDF_SCRYPT_2_20; KDF_BCRYPT_15; KDF_HKDF_SHA256; KDF_HKDF_SHA384; KDF_HKDF_SHA512] \/
  exists n, a = {| ka_kind := KDF_HMAC_SHA2; ka_id := 9; ka_salt_size := 64; ka_output_size := n; ka_cost := 0 |}.

(* [h] is the hash of [pass] under algorithm number [id] with this salt and info *)
Definition or_empty (b : option bytes) : bytes := match b with Some x => x | None => [] end.
Inductive hash_of (P : prims) (pass : bytes) : N -> option bytes -> option bytes -> N -> bytes -> Prop :=
| scrypt_2_17 salt info n h : p_scrypt P pass salt (2 ^ 17) 8 1 32 = Some h -> hash_of P pass 1 (Some salt) info n h
| scrypt_2_18 salt info n h : p_scrypt P pass salt (2 ^ 18) 8 1 32 = Some h -> hash_of P pass 2 (Some salt) info n h
| scrypt_2_19 salt info n h : p_scrypt P pass salt (2 ^ 19) 8 1 32 = Some h -> hash_of P pass 3 (Some salt) info n h
| scrypt_2_20 salt info n h : p_scrypt P pass salt (2 ^ 20) 8 1 32 = Some h -> hash_of P pass 4 (Some salt) info n h
| bcrypt_15 salt info n pass' setting out h :
    c_string pass pass' -> c_string (list_byte_of_string "$2y$15$" ++ salt) setting ->
    p_crypt P pass' setting = Some out -> c_string out h -> hash_of P pass 5 (Some salt) info n h
| hkdf_256 salt info n h : p_hkdf P SHA256 (or_empty salt) pass (or_empty info) 32 = Some h -> hash_of P pass 6 salt info n h
| hkdf_384 salt info n h : p_hkdf P SHA384 (or_empty salt) pass (or_empty info) 48 = Some h -> hash_of P pass 7 salt info n h
| hkdf_512 salt info n h : p_hkdf P SHA512 (or_empty salt) pass (or_empty info) 64 = Some h -> hash_of P pass 8 salt info n h
| hkdf_expand_512 salt info n h : p_hkdf_expand P SHA512 pass (or_empty info) n = Some h -> hash_of P pass 9 salt info n h.

(* the salt of a new hash, made from draw [i] of the random source *)
Inductive fresh_salt (P : prims) (i : nat) : N -> bytes -> Prop :=
| scrypt_salt id salt : 1 <= id <= 4 -> p_rand P i 16 = Some salt -> fresh_salt P i id salt
| bcrypt_salt r setting salt : p_rand P i 16 = Some r -> p_gensalt P 15 r = Some setting ->
    salt = firstn 22 (skipn 7 setting) -> length salt = 22%nat -> fresh_salt P i 5 salt
| hkdf_256_salt salt : p_rand P i 32 = Some salt -> fresh_salt P i 6 salt
| hkdf_384_salt salt : p_rand P i 48 = Some salt -> fresh_salt P i 7 salt
| hkdf_512_salt salt : p_rand P i 64 = Some salt -> fresh_salt P i 8 salt
| hkdf_expand_salt salt : p_rand P i 64 = Some salt -> fresh_salt P i 9 salt.
