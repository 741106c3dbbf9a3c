(* The functions that make keys, identities and contexts, on the heap of Model/Heap.v: the
   generators of identity.c, ephemeral_keypair.c, root_keys.c, devinfo.c, fingerprint.c,
   stream_key.c, stream_iv.c, stream_ctx.c, transport_root_key.c and wickr_ctx.c.  They follow the
   functional models and add what is allocated, released and left behind.  [s] is the number of
   the first random draw.  Simplification: the bytes of an argument are read once. *)
From Verif.Base Require Import Bytes.
From Verif.Model Require Import Buffer Cipher Ecdsa Kdf Prims Engine Fingerprint Identity Node Keys Stream Handshake Ctx Proto Heap HeapObjects HeapMessages HeapParse HeapWrite HeapEngine HeapProtocol.
Local Open Scope N_scope.
Local Open Scope h_scope.

Section Generate.
Context (P : prims).

(* identity.c:26-33 *)
Definition h_identity_sign (x : option hid) (data : option hbuf) (s : nat) : H (option hsig) :=
  match x, data with
  | Some i, Some d =>
      touch (hid_addr i) ;;;
      touch (hkey_addr (hid_key i)) ;;;
      match hkey_pri (hid_key i) with
      | None => hret None
      | Some _ => h_ec_sign P (Some (hid_key i)) (Some d) SHA512 s
      end
  | _, _ => hret None
  end.
(* identity.c:35-71 *)
Definition h_node_identity_gen (root_identity : option hid) (identifier : option hbuf) (s : nat) : H (option hid) :=
  match root_identity with
  | None => hret None
  | Some r =>
      touch (hid_addr r) ;;;
      match hid_type r with
      | ID_NODE => hret None
      | ID_ROOT =>
          key <-? h_ec_rand_key P P521 s else hret tt ;;
          sig <-? h_identity_sign (Some r) (Some (hkey_pub key)) (S s) else h_ec_key_destroy (Some key) ;;
          i <-? (match identifier with
                 | Some i => h_buffer_copy (Some i)
                 | None => h_crypto_random P IDENTIFIER_LEN (S (S s))
                 end) else (h_ec_key_destroy (Some key) ;;; h_ecdsa_result_destroy (Some sig)) ;;
          x <-? h_identity_create ID_NODE (Some i) (Some key) (Some sig)
            else (h_ec_key_destroy (Some key) ;;; h_ecdsa_result_destroy (Some sig) ;;; h_buffer_destroy (Some i)) ;;
          hret (Some x)
      end
  end.
(* ephemeral_keypair.c:25-48 *)
Definition h_keypair_generate_identity (identifier : N) (x : option hid) (s : nat) : H (option hkp) :=
  rnd_key <-? h_ec_rand_key P P521 s else hret tt ;;
  signature <-? h_identity_sign x (Some (hkey_pub rnd_key)) (S s) else h_ec_key_destroy (Some rnd_key) ;;
  k <-? h_keypair_create identifier (Some rnd_key) (Some signature)
    else (h_ec_key_destroy (Some rnd_key) ;;; h_ecdsa_result_destroy (Some signature)) ;;
  hret (Some k).
(* wickr_ctx.c:708-715 *)
Definition h_ctx_ephemeral_keypair_gen (ctx : option hcx) (key_id : N) (s : nat) : H (option hkp) :=
  match ctx with
  | None => hret None
  | Some c => touch (hcx_addr c) ;;; touch (hch_addr (hcx_chain c)) ;;; h_keypair_generate_identity key_id (Some (hch_node (hcx_chain c))) s
  end.

(* root_keys.c:30-66; the signature key is not tested (51-57 test the remote key again), but the
   constructor refuses NULL *)
Definition h_root_keys_generate (s : nat) : H (option hrk) :=
  node_storage <-? h_cipher_key_random P default_cipher s else hret tt ;;
  remote_storage <-? h_cipher_key_random P default_cipher (S s) else h_cipher_key_destroy (Some node_storage) ;;
  sig <-! h_ec_rand_key P P521 (S (S s)) ;;
  k <-? h_root_keys_create sig (Some node_storage) (Some remote_storage)
    else (h_cipher_key_destroy (Some node_storage) ;;; h_cipher_key_destroy (Some remote_storage) ;;; h_ec_key_destroy sig) ;;
  hret (Some k).
(* root_keys.c:198-235 *)
Definition h_root_keys_localize (keys : option hrk) (info : option hdi) : H (option hsk) :=
  match keys, info with
  | Some k, Some i =>
      touch (hrk_addr k) ;;;
      rsr_copy <-? h_cipher_key_copy (Some (hrk_remote k)) else hret tt ;;
      touch (hck_addr (hrk_node k)) ;;;
      touch (hdi_addr i) ;;;
      material <-? h_sha2 P (Some (hck_data (hrk_node k))) (hdi_system i) SHA256 else h_cipher_key_destroy (Some rsr_copy) ;;
      local_storage <-? h_cipher_key_create (hck_cipher (hrk_node k)) (Some material)
        else (h_cipher_key_destroy (Some rsr_copy) ;;; h_buffer_destroy_zero (Some material)) ;;
      x <-? h_storage_keys_create (Some local_storage) (Some rsr_copy)
        else (h_cipher_key_destroy (Some local_storage) ;;; h_cipher_key_destroy (Some rsr_copy)) ;;
      hret (Some x)
  | _, _ => hret None
  end.

(* devinfo.c:50-101; the salt becomes part of the result, but stays the caller's when there is none *)
Definition h_dev_info_derive (dev_salt system_id : option hbuf) : H (option hdi) :=
  match dev_salt, system_id with
  | Some salt, Some sid =>
      system_salt <-? h_sha2 P (Some sid) None SHA256 else hret tt ;;
      id_data <-? h_sha2 P (Some sid) (Some salt) SHA512 else h_buffer_destroy (Some system_salt) ;;
      d <-! h_bytes id_data ;;
      msg <-? h_buffer_copy_section d 0 (digest_size SHA512 / 2)
        else (h_buffer_destroy (Some system_salt) ;;; h_buffer_destroy (Some id_data)) ;;
      srv <-! h_buffer_copy_section d (digest_size SHA512 / 2) (digest_size SHA512 / 2) ;;
      h_buffer_destroy (Some id_data) ;;;
      match srv with
      | None => h_buffer_destroy (Some system_salt) ;;; h_buffer_destroy (Some msg) ;;; hret None
      | Some v =>
          x <-? h_dev_info_create (Some salt) (Some system_salt) (Some msg) (Some v)
            else (h_buffer_destroy (Some system_salt) ;;; h_buffer_destroy (Some msg) ;;; h_buffer_destroy (Some v)) ;;
          hret (Some x)
      end
  | _, _ => hret None
  end.
(* devinfo.c:25-48 *)
Definition h_dev_info_create_new (system_id : option hbuf) (s : nat) : H (option hdi) :=
  match system_id with
  | None => hret None
  | Some sid =>
      dev_salt <-? h_crypto_random P (digest_size SHA512) s else hret tt ;;
      x <-? h_dev_info_derive (Some dev_salt) (Some sid) else h_buffer_destroy (Some dev_salt) ;;
      hret (Some x)
  end.

(* eckey.c:46-68; the key has been tested by the caller *)
Definition h_pubdata_fixed_len (key : hkey) : H (option hbuf) :=
  touch (hkey_addr key) ;;;
  b <-! h_bytes (hkey_pub key) ;;
  if blen b =? max_pub_size (hkey_curve key) then h_buffer_copy (Some (hkey_pub key))
  else if max_pub_size (hkey_curve key) <? blen b then hret None
  else
    fixed <-? h_buffer_create_empty (max_pub_size (hkey_curve key)) else hret tt ;;
    x <-! h_fill fixed (fit (max_pub_size (hkey_curve key)) b) ;;
    hret (Some x).
(* fingerprint.c:6-27 *)
Definition h_fingerprint_sha512_create (input : option hbuf) : H (option hfp) :=
  match input with
  | None => hret None
  | Some i =>
      d <-? h_sha2 P (Some i) None SHA512 else hret tt ;;
      f <-? h_fingerprint_create FP_SHA512 (Some d) else h_buffer_destroy (Some d) ;;
      hret (Some f)
  end.
(* fingerprint.c:29-43 *)
Definition h_fingerprint_sha512_encode (pub_key_data identifier : option hbuf) : H (option hfp) :=
  match pub_key_data, identifier with
  | Some p, Some i =>
      a <-! h_bytes i ;;
      b <-! h_bytes p ;;
      concat_buffer <-! h_concat (Some a) (Some b) ;;
      f <-! h_fingerprint_sha512_create concat_buffer ;;
      h_buffer_destroy concat_buffer ;;;
      hret f
  | _, _ => hret None
  end.
(* fingerprint.c:57-73: the order of two strings, by their first difference *)
Fixpoint h_fingerprint_order (a b whole1 whole2 : bytes) : H (option hbuf) :=
  match a, b with
  | x :: a', y :: b' =>
      if Byte.eqb x y then h_fingerprint_order a' b' whole1 whole2
      else if b2n y <? b2n x then h_concat (Some whole1) (Some whole2)
      else h_concat (Some whole2) (Some whole1)
  | _, _ => hret None
  end.
(* fingerprint.c:45-86; there is one type of fingerprint *)
Definition h_fingerprint_sha512_combine (f1 f2 : option hfp) : H (option hfp) :=
  match f1, f2 with
  | Some x, Some y =>
      touch (hfp_addr x) ;;;
      touch (hfp_addr y) ;;;
      a <-! h_bytes (hfp_data x) ;;
      b <-! h_bytes (hfp_data y) ;;
      if negb (blen a =? blen b) then hret None
      else
        concat_buffer <-? h_fingerprint_order a b a b else hret tt ;;
        f <-! h_fingerprint_sha512_create (Some concat_buffer) ;;
        h_buffer_destroy (Some concat_buffer) ;;;
        hret f
  | _, _ => hret None
  end.
(* fingerprint.c:88-107 *)
Definition h_fingerprint_gen (key : option hkey) (identifier : option hbuf) (t : fingerprint_type) : H (option hfp) :=
  match key, identifier with
  | Some k, Some i =>
      fixed_pub_data <-? h_pubdata_fixed_len k else hret tt ;;
      f <-! h_fingerprint_sha512_encode (Some fixed_pub_data) (Some i) ;;
      h_buffer_destroy (Some fixed_pub_data) ;;;
      hret f
  | _, _ => hret None
  end.
(* fingerprint.c:109-120 *)
Definition h_fingerprint_gen_bilateral (local remote : option hfp) (t : fingerprint_type) : H (option hfp) :=
  match t with FP_SHA512 => h_fingerprint_sha512_combine local remote end.
(* identity.c:163-172 *)
Definition h_identity_get_fingerprint (x : option hid) : H (option hfp) :=
  match x with
  | None => hret None
  | Some i => touch (hid_addr i) ;;; h_fingerprint_gen (Some (hid_key i)) (Some (hid_identifier i)) FP_SHA512
  end.
(* identity.c:174-210 *)
Definition h_identity_get_bilateral_fingerprint (x remote : option hid) : H (option hfp) :=
  match x, remote with
  | Some a, Some b =>
      touch (hid_addr a) ;;;
      local_fingerprint <-? h_fingerprint_gen (Some (hid_key a)) (Some (hid_identifier a)) FP_SHA512 else hret tt ;;
      touch (hid_addr b) ;;;
      remote_fingerprint <-? h_fingerprint_gen (Some (hid_key b)) (Some (hid_identifier b)) FP_SHA512
        else h_fingerprint_destroy (Some local_fingerprint) ;;
      merged <-! h_fingerprint_gen_bilateral (Some local_fingerprint) (Some remote_fingerprint) FP_SHA512 ;;
      h_fingerprint_destroy (Some remote_fingerprint) ;;;
      h_fingerprint_destroy (Some local_fingerprint) ;;;
      hret merged
  | _, _ => hret None
  end.

(* transport_root_key.c:5-27 *)
Definition h_root_key_create_random (c : cipher) (send recv : N) (s : nat) : H (option htr) :=
  secret <-? h_crypto_random P (key_len c) s else hret tt ;;
  k <-? h_root_key_create (Some secret) c send recv else h_buffer_destroy_zero (Some secret) ;;
  hret (Some k).
(* transport_root_key.c:87-130; the parameters are on the stack.  The derived bytes stay behind
   when they have the wrong length or the cipher key cannot be made. *)
Definition h_root_key_to_stream_key (k : htr) (salt stream_id : hbuf) (d : direction) : H (option hst) :=
  touch (htr_addr k) ;;;
  raw <-? h_perform_kdf_with P KDF_HKDF_SHA512 (Some salt) (Some stream_id) (htr_secret k) else hret tt ;;
  touch (hkr_addr raw) ;;;
  b <-! h_bytes (hkr_hash raw) ;;
  if negb (blen b =? key_len (htr_cipher k) * 2) then hret None
  else
    cipher_key_data <-! h_buffer_copy_section b 0 (key_len (htr_cipher k)) ;;
    cipher_key <-? h_cipher_key_create (htr_cipher k) cipher_key_data else h_buffer_destroy_zero cipher_key_data ;;
    evo_key <-! h_buffer_copy_section b (key_len (htr_cipher k)) (key_len (htr_cipher k)) ;;
    h_kdf_result_destroy (Some raw) ;;;
    x <-? h_stream_key_create (Some cipher_key) evo_key (match d with ENCODE => htr_send k | DECODE => htr_recv k end) None
      else (h_cipher_key_destroy (Some cipher_key) ;;; h_buffer_destroy_zero evo_key) ;;
    hret (Some x).

(* stream_key.c:39-62 *)
Definition h_stream_key_create_rand (c : cipher) (ppe : N) (s : nat) : H (option hst) :=
  k <-? h_cipher_key_random P c s else hret tt ;;
  e <-? h_crypto_random P (key_len c) (S s) else h_cipher_key_destroy (Some k) ;;
  x <-? h_stream_key_create (Some k) (Some e) ppe None else (h_cipher_key_destroy (Some k) ;;; h_buffer_destroy_zero (Some e)) ;;
  hret (Some x).
(* stream_iv.c:12-34; the seed is not wiped on failure *)
Definition h_stream_iv_create (c : cipher) (s : nat) : H (option hsi) :=
  seed <-? h_crypto_random P (digest_size SHA512) s else hret tt ;;
  x <-? alloc T_stream_iv [] else h_buffer_destroy (Some seed) ;;
  hret (Some {| hsi_addr := x; hsi_cipher := c; hsi_seed := seed; hsi_count := 0 |}).

End Generate.
