(* From what the keys that wrap other keys are derived. *)
From Verif.Base Require Import Bytes.
From Verif.Model Require Import Cipher Ecdsa Kdf Prims Identity Node Exchange.
Local Open Scope N_scope.

Definition or_none (o : option bytes) : bytes := match o with Some b => b | None => [] end.
(* a packet version and the digest its key exchanges use *)
Inductive version_digest : N -> digest -> Prop :=
| version_2 : version_digest 2 SHA256
| version_3 : version_digest 3 SHA256
| version_4 : version_digest 4 SHA512.
(* what a key exchange from [sender] to [receiver] is bound to *)
Inductive bound_to (sender : chain) (receiver : node) : N -> bytes -> Prop :=
| bound_2 : bound_to sender receiver 2 (nd_dev_id receiver)
| bound_3 : bound_to sender receiver 3 (ek_pub (id_key (ch_root sender)) ++ ek_pub (id_key (ch_root (nd_chain receiver))) ++ nd_dev_id receiver)
| bound_4 : bound_to sender receiver 4 (ek_pub (id_key (ch_root sender)) ++ ek_pub (id_key (ch_root (nd_chain receiver))) ++ nd_dev_id receiver).
(* [key] is what the owners of [local] and [remote] agree on under these parameters; 6, 7, 8 and 9 are
   the numbers of the HKDF algorithms in the library's format *)
Inductive agreed (P : prims) (secret : bytes) (salt info : option bytes) (len : N) (key : bytes) : N -> Prop :=
| by_hkdf_256 : p_hkdf P SHA256 (or_none salt) secret (or_none info) len = Some key -> agreed P secret salt info len key 6
| by_hkdf_384 : p_hkdf P SHA384 (or_none salt) secret (or_none info) len = Some key -> agreed P secret salt info len key 7
| by_hkdf_512 : p_hkdf P SHA512 (or_none salt) secret (or_none info) len = Some key -> agreed P secret salt info len key 8
| by_expand : p_hkdf_expand P SHA512 secret (or_none info) len = Some key -> agreed P secret salt info len key 9.
(* the key of an exchange: HKDF of the shared secret, salted with the pre-shared key *)
Definition exchange_key (P : prims) (secret : bytes) (psk : option bytes) (sender : chain) (receiver : node) (version : N) (key : bytes) : Prop :=
  exists d info, version_digest version d /\ bound_to sender receiver version info /\ p_hkdf P d (or_none psk) secret info 32 = Some key.
