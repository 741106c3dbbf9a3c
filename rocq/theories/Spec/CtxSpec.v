(* Vocabulary for contexts, recovery and device storage. *)
From Verif.Base Require Import Bytes Monad.
From Verif.Model Require Import Cipher Ecdsa Prims Engine Identity Keys Ctx.
From Verif.Spec Require Import BufferSpec CodecSpec IdentitySpec KeysSpec MessageSpec.
Local Open Scope N_scope.

(* the key that protects message headers of a sender *)
Definition header_key_of (P : prims) (c : chain) : cipher_key :=
  {| ck_cipher := AES256_GCM; ck_data := p_sha P SHA256 (id_identifier (ch_root c) ++ id_identifier (ch_node c)) |}.
(* SHA-256 maps these two messages to one value only if they are the same *)
Definition no_collision_256 (P : prims) (x y : bytes) : Prop := p_sha P SHA256 x = p_sha P SHA256 y -> x = y.
(* a context with its private keys, of well-formed parts *)
Definition good_ctx (P : prims) (c : ctx) : Prop :=
  good_chain P (cx_chain c) /\ engine_pair P (id_key (ch_root (cx_chain c))) /\ engine_pair P (id_key (ch_node (cx_chain c))) /\
  good_storage_keys (cx_storage c) /\ cx_header_key c = header_key_of P (cx_chain c).
(* the same context on device i, as after a restart: nothing validated yet, the default packet version *)
Definition restored (i : dev_info) (c : ctx) : ctx :=
  {| cx_dev := i; cx_chain := {| ch_root := ch_root (cx_chain c); ch_node := ch_node (cx_chain c); ch_status := S_UNKNOWN; ch_cache := None |};
     cx_storage := cx_storage c; cx_header_key := cx_header_key c; cx_version := 4 |}.
(* device information that can be copied: what wickr_dev_info_derive makes *)
Definition good_dev_info (P : prims) (i : dev_info) : Prop :=
  exists salt system_id, derived_from P salt system_id i /\ within_limit (blen salt).
(* the operating system always delivers: random bytes, new keys and signatures *)
Definition never_fails (P : prims) : Prop :=
  (forall i n, p_rand P i n <> None) /\ (forall i, p_ec_gen P i <> None) /\
  (forall d pub pri m i, pairs P pub pri -> p_sign P d pri m i <> None).
(* what a generated context contains *)
Definition generated (P : prims) (i : dev_info) (k : root_keys) (id : bytes) (g : gen_result) : Prop :=
  good_ctx P (gr_ctx g) /\ cx_dev (gr_ctx g) = i /\ gr_root_keys g = k /\
  id_type (ch_root (cx_chain (gr_ctx g))) = ID_ROOT /\ id_type (ch_node (cx_chain (gr_ctx g))) = ID_NODE /\
  id_identifier (ch_root (cx_chain (gr_ctx g))) = id /\ id_key (ch_root (cx_chain (gr_ctx g))) = rk_signature k /\
  chain_truth P (cx_chain (gr_ctx g)) = true /\ ch_status (cx_chain (gr_ctx g)) = S_VALID /\
  sk_remote (cx_storage (gr_ctx g)) = rk_remote k /\
  sk_local (cx_storage (gr_ctx g)) = {| ck_cipher := ck_cipher (rk_node k); ck_data := p_sha P SHA256 (ck_data (rk_node k) ++ bytes_of (di_system_salt i)) |} /\
  good_key (gr_recovery_key g) /\ ck_cipher (gr_recovery_key g) = AES256_GCM.
