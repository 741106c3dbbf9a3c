(* What the functions that make keys, identities and contexts may leave readable in released
   memory.  See Spec/HeapEngineSpec.v for what an operation owes its caller. *)
From Verif.Base Require Import Bytes Monad.
From Verif.Model Require Import Buffer Cipher Ecdsa Kdf Prims Engine Fingerprint Identity Node Keys Stream Handshake Ctx Heap HeapObjects.
From Verif.Spec Require Import HeapSpec HeapObjectSpec CopySpec HeapParseSpec HeapEngineSpec HeapProtocolSpec.
Local Open Scope N_scope.

(* the signature of [x] over the public half of a new key *)
Definition new_signature (P : prims) (x : option identity) (s : nat) : list bytes :=
  match fst (ec_rand_key P P521 s) with
  | Val k => plain_of sig_plain (fst (identity_sign P x (Some (ek_pub k)) (S s)))
  | _ => []
  end.
(* a new node: its signature and its identifier *)
Definition node_gen_public (P : prims) (root : option identity) (identifier : option bytes) (s : nat) : list bytes :=
  new_signature P root s ++ match identifier with Some i => [i] | None => drawn P (S (S s)) IDENTIFIER_LEN end.
(* a new device: the digest its two identifiers are cut from *)
Definition dev_new_public (P : prims) (system_id : option bytes) (s : nat) : list bytes :=
  match system_id with Some i => map (fun salt => p_sha P SHA512 (i ++ salt)) (drawn P s (digest_size SHA512)) | None => [] end.
(* ... and, after a failure, its salts and its identifiers *)
Definition dev_new_exposed (P : prims) (system_id : option bytes) (s : nat) : list bytes :=
  match system_id with
  | Some i => flat_map (fun salt => [salt; p_sha P SHA256 i; firstn 32 (p_sha P SHA512 (i ++ salt)); skipn 32 (p_sha P SHA512 (i ++ salt))])
                (drawn P s (digest_size SHA512))
  | None => []
  end.
(* a fingerprint: the public key, what is hashed, and the fingerprint itself *)
Definition fingerprint_public (P : prims) (key : option ec_key) (identifier : option bytes) : list bytes :=
  match key, identifier with
  | Some k, Some i =>
      match ec_key_get_pubdata_fixed_len (Some k) with
      | Val f => f :: opt_list (buffer_concat (Some i) (Some f))
      | _ => []
      end ++ plain_of fp_plain (fingerprint_gen P (Some k) (Some i) FP_SHA512)
  | _, _ => []
  end.
Definition combine_public (P : prims) (f1 f2 : option fingerprint) : list bytes :=
  match f1, f2 with
  | Some a, Some b => opt_list (fingerprint_order (fp_data a) (fp_data b) (fp_data a) (fp_data b)) ++ opt_plain fp_plain (fingerprint_sha512_combine P (Some a) (Some b))
  | _, _ => []
  end.
Definition id_fingerprint_public (P : prims) (x : option identity) : list bytes :=
  match x with Some i => fingerprint_public P (Some (id_key i)) (Some (id_identifier i)) | None => [] end.
Definition bilateral_public (P : prims) (x remote : option identity) : list bytes :=
  id_fingerprint_public P x ++ id_fingerprint_public P remote ++
  match identity_get_fingerprint P x, identity_get_fingerprint P remote with
  | Val a, Val b => combine_public P (Some a) (Some b)
  | _, _ => []
  end.
(* keys of a stream: the salt of the derivation and the derived bytes *)
Definition to_stream_exposed (P : prims) (k : root_key) (salt stream_id : bytes) : list bytes :=
  derived P {| km_algo := KDF_HKDF_SHA512; km_salt := Some salt; km_info := Some stream_id |} (rk_secret k) ++ [salt].
