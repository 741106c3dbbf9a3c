(* Vocabulary for root keys, storage keys and device information. *)
From Verif.Base Require Import Bytes Monad.
From Verif.Model Require Import Cipher Ecdsa Prims Engine Keys.
From Verif.Spec Require Import BufferSpec CodecSpec IdentitySpec.
Local Open Scope N_scope.

(* both symmetric keys have the size of their cipher; the signature key is a key pair made by the engine *)
Definition good_root_keys (P : prims) (k : root_keys) : Prop :=
  engine_key P (rk_signature k) /\ ek_pri (rk_signature k) <> None /\ good_key (rk_node k) /\ good_key (rk_remote k).
Definition good_storage_keys (k : storage_keys) : Prop := good_key (sk_local k) /\ good_key (sk_remote k).

(* the identifiers of a device, from the two digests *)
Definition derived_from (P : prims) (salt system_id : bytes) (i : dev_info) : Prop :=
  di_dev_salt i = salt /\
  di_system_salt i = Some (p_sha P SHA256 system_id) /\
  (di_msg_proto_id i ++ di_srv_comm_id i)%list = p_sha P SHA512 (system_id ++ salt) /\
  blen (p_sha P SHA256 system_id) = 32 /\ blen (di_msg_proto_id i) = 32 /\ blen (di_srv_comm_id i) = 32.
