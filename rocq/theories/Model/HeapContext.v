(* Validation of identity chains and nodes, and generation and import of contexts, on the heap of
   Model/Heap.v: parts of identity.c, identity_priv.c, node.c, node_priv.c and wickr_ctx.c.  They
   follow the functional models and add what is allocated, released and left behind.
   A function that changes an object in place gives the object's new value besides its answer;
   the blocks of the two values need not be the same.  [s] is the number of the first random
   draw.  Simplification: the bytes of an argument are read once. *)
From Verif.Base Require Import Bytes.
From Verif.Model Require Import Buffer Cipher Ecdsa Kdf Prims Engine Fingerprint Identity Node Keys Stream Handshake Ctx Proto Heap HeapObjects HeapMessages HeapParse HeapWrite HeapEngine HeapProtocol HeapGenerate.
Local Open Scope N_scope.
Local Open Scope h_scope.

Section Context.
Context (P : prims).

(* --- identity chains --- *)
(* identity_priv.c:245-280 *)
Definition h_chain_make_status_cache (c : hch) : H (option hbuf) :=
  touch (hch_addr c) ;;;
  touch (hid_addr (hch_root c)) ;;;
  touch (hid_addr (hch_node c)) ;;;
  match hid_sig (hch_node c) with
  | None => hret None
  | Some sig =>
      touch (hkey_addr (hid_key (hch_root c))) ;;;
      touch (hsig_addr sig) ;;;
      touch (hkey_addr (hid_key (hch_node c))) ;;;
      r <-! h_bytes (hkey_pub (hid_key (hch_root c))) ;;
      g <-! h_bytes (hsig_data sig) ;;
      n <-! h_bytes (hkey_pub (hid_key (hch_node c))) ;;
      concat_buffer <-? h_concat_multi [Some r; Some g; Some n; Some [n2b (status_int (hch_status c))]] else hret tt ;;
      cache_buffer <-! h_sha2 P (Some concat_buffer) None SHA512 ;;
      h_buffer_destroy (Some concat_buffer) ;;;
      hret cache_buffer
  end.
(* identity_priv.c:282-296 *)
Definition h_chain_has_valid_cache (c : hch) : H bool :=
  touch (hch_addr c) ;;;
  match hch_cache c with
  | None => hret false
  | Some v =>
      current <-! h_chain_make_status_cache c ;;
      x <-! h_bytes_opt current ;;
      y <-! h_bytes v ;;
      h_buffer_destroy current ;;;
      hret (buffer_is_equal x (Some y))
  end.
Definition hch_set (c : hch) (s : status) (cache : option hbuf) : hch :=
  {| hch_addr := hch_addr c; hch_root := hch_root c; hch_node := hch_node c; hch_status := s; hch_cache := cache |}.
(* identity.c:273-290, identity_priv.c:298-302: the old cache is released and a new one made, of
   which nothing is tested *)
Definition h_chain_validate (c : hch) : H (bool * hch) :=
  cached <-! h_chain_has_valid_cache c ;;
  if cached then hret (match hch_status c with S_VALID => true | _ => false end, c)
  else
    touch (hid_addr (hch_root c)) ;;;
    touch (hid_addr (hch_node c)) ;;;
    touch (hkey_addr (hid_key (hch_node c))) ;;;
    is_valid <-! h_ec_verify P (hid_sig (hch_node c)) (Some (hid_key (hch_root c))) (Some (hkey_pub (hid_key (hch_node c)))) ;;
    let s := if is_valid then S_VALID else S_INVALID in
    h_buffer_destroy (hch_cache c) ;;;
    cache <-! h_chain_make_status_cache (hch_set c s None) ;;
    hret (is_valid, hch_set c s cache).

(* --- nodes --- *)
(* ephemeral_keypair.c:84-91 *)
Definition h_keypair_verify_owner (k : option hkp) (owner : hid) : H bool :=
  match k with
  | None => hret false
  | Some x => touch (hkp_addr x) ;;; touch (hid_addr owner) ;;; touch (hkey_addr (hkp_key x)) ;;;
              h_ec_verify P (hkp_sig x) (Some (hid_key owner)) (Some (hkey_pub (hkp_key x)))
  end.
(* node_priv.c:104-138 *)
Definition h_node_make_status_cache (n : hnd) : H (option hbuf) :=
  touch (hnd_addr n) ;;;
  match hnd_keypair n with
  | None => hret None
  | Some k =>
      touch (hkp_addr k) ;;;
      touch (hch_addr (hnd_chain n)) ;;;
      match hkp_sig k, hch_cache (hnd_chain n) with
      | Some sig, Some _ =>
          touch (hkey_addr (hkp_key k)) ;;;
          touch (hsig_addr sig) ;;;
          p <-! h_bytes (hkey_pub (hkp_key k)) ;;
          g <-! h_bytes (hsig_data sig) ;;
          concat_buffer <-? h_concat_multi [Some p; Some g; Some [n2b (status_int (hnd_status n))]] else hret tt ;;
          cache_buffer <-! h_sha2 P (Some concat_buffer) None SHA512 ;;
          h_buffer_destroy (Some concat_buffer) ;;;
          hret cache_buffer
      | _, _ => hret None
      end
  end.
(* node_priv.c:140-159 *)
Definition h_node_has_valid_cache (n : hnd) : H bool :=
  touch (hnd_addr n) ;;;
  match hnd_cache n with
  | None => hret false
  | Some v =>
      chain_ok <-! h_chain_has_valid_cache (hnd_chain n) ;;
      if negb chain_ok then hret false
      else
        current <-! h_node_make_status_cache n ;;
        x <-! h_bytes_opt current ;;
        y <-! h_bytes v ;;
        h_buffer_destroy current ;;;
        hret (buffer_is_equal x (Some y))
  end.
Definition hnd_set (n : hnd) (c : hch) (s : status) (cache : option hbuf) : hnd :=
  {| hnd_addr := hnd_addr n; hnd_dev_id := hnd_dev_id n; hnd_chain := c; hnd_keypair := hnd_keypair n; hnd_status := s; hnd_cache := cache |}.
(* node_priv.c:161-165, with the new status and the chain as it is now *)
Definition h_node_update (n : hnd) (c : hch) (s : status) : H hnd :=
  h_buffer_destroy (hnd_cache n) ;;;
  cache <-! h_node_make_status_cache (hnd_set n c s None) ;;
  hret (hnd_set n c s cache).
(* node.c:52-77 *)
Definition h_node_verify_signature_chain (n : hnd) : H (bool * hnd) :=
  cached <-! h_node_has_valid_cache n ;;
  if cached then hret (match hnd_status n with S_VALID => true | _ => false end, n)
  else
    v <-! h_chain_validate (hnd_chain n) ;;
    if negb (fst v) then n' <-! h_node_update n (snd v) S_INVALID ;; hret (false, n')
    else
      touch (hch_addr (snd v)) ;;;
      has_valid_ephemeral_key <-! h_keypair_verify_owner (hnd_keypair n) (hch_node (snd v)) ;;
      n' <-! h_node_update n (snd v) (if has_valid_ephemeral_key then S_VALID else S_INVALID) ;;
      hret ((match hnd_status n' with S_VALID => true | _ => false end) &&
            (match hch_status (hnd_chain n') with S_VALID => true | _ => false end), n').

(* --- contexts --- *)
(* wickr_ctx.c:385-416; the header key is not released when the structure cannot be allocated.
   The device, the chain and the keys become part of the result, but stay the caller's when there
   is none. *)
Definition h_ctx_create (info : option hdi) (id_chain : option hch) (storage : option hsk) : H (option hcx) :=
  match info, id_chain, storage with
  | Some i, Some c, Some k =>
      packet_header_key <-? h_gen_header_key P default_cipher c else hret tt ;;
      x <-? alloc T_ctx [] else hret tt ;;
      hret (Some {| hcx_addr := x; hcx_dev := i; hcx_chain := c; hcx_storage := k; hcx_header := packet_header_key; hcx_version := DEFAULT_PKT_ENC_VERSION |})
  | _, _, _ => hret None
  end.
(* wickr_ctx.c:179-274; when the chain is not valid its structure and its cache stay behind, and
   the copy of the root keys is not tested (258 tests the originals), but the constructor refuses
   NULL *)
Definition h_ctx_gen_with_root_keys (info : option hdi) (keys : option hrk) (identifier : option hbuf) (s : nat) : H (option hgr) :=
  match info, keys, identifier with
  | Some i, Some k, Some id =>
      touch (hrk_addr k) ;;;
      sig_key_copy <-? h_ec_key_copy (Some (hrk_sig k)) else hret tt ;;
      identifier_copy <-? h_buffer_copy (Some id) else h_ec_key_destroy (Some sig_key_copy) ;;
      root_identity <-? h_identity_create ID_ROOT (Some identifier_copy) (Some sig_key_copy) None
        else (h_buffer_destroy (Some identifier_copy) ;;; h_ec_key_destroy (Some sig_key_copy)) ;;
      new_node_identity <-? h_node_identity_gen P (Some root_identity) None s else h_identity_destroy (Some root_identity) ;;
      new_id_chain <-? h_chain_create (Some root_identity) (Some new_node_identity)
        else (h_identity_destroy (Some new_node_identity) ;;; h_identity_destroy (Some root_identity)) ;;
      v <-! h_chain_validate new_id_chain ;;
      if negb (fst v) then
        h_identity_destroy (Some new_node_identity) ;;; h_identity_destroy (Some root_identity) ;;; hret None
      else
        new_storage_keys <-? h_root_keys_localize P (Some k) (Some i) else h_chain_destroy (Some (snd v)) ;;
        info_copy <-? h_dev_info_copy (Some i) else (h_chain_destroy (Some (snd v)) ;;; h_storage_keys_destroy (Some new_storage_keys)) ;;
        ctx <-? h_ctx_create (Some info_copy) (Some (snd v)) (Some new_storage_keys)
          else (h_chain_destroy (Some (snd v)) ;;; h_storage_keys_destroy (Some new_storage_keys) ;;; h_dev_info_destroy (Some info_copy)) ;;
        recovery_key <-? h_cipher_key_random P default_cipher (3 + s)%nat else h_ctx_destroy (Some ctx) ;;
        root_keys_copy <-! h_root_keys_copy (Some k) ;;
        final_result <-? h_gen_result_create (Some ctx) (Some recovery_key) root_keys_copy
          else (h_ctx_destroy (Some ctx) ;;; h_cipher_key_destroy (Some recovery_key) ;;; h_root_keys_destroy root_keys_copy) ;;
        hret (Some final_result)
  | _, _, _ => hret None
  end.
(* wickr_ctx.c:57-73 *)
Definition h_ctx_gen_new (info : option hdi) (identifier : option hbuf) (s : nat) : H (option hgr) :=
  match info, identifier with
  | Some i, Some id =>
      new_root_keys <-? h_root_keys_generate P s else hret tt ;;
      new_ctx <-! h_ctx_gen_with_root_keys (Some i) (Some new_root_keys) (Some id) (3 + s)%nat ;;
      h_root_keys_destroy (Some new_root_keys) ;;;
      hret new_ctx
  | _, _ => hret None
  end.
(* wickr_ctx.c:75-100: the root keys are released without the signature key when that cannot be
   copied (95 is reached with NULL in its place) *)
Definition h_ctx_gen_new_with_sig_key (info : option hdi) (sig_key : option hkey) (identifier : option hbuf) (s : nat) : H (option hgr) :=
  match info, identifier with
  | Some i, Some id =>
      new_root_keys <-? h_root_keys_generate P s else hret tt ;;
      touch (hrk_addr new_root_keys) ;;;
      h_ec_key_destroy (Some (hrk_sig new_root_keys)) ;;;
      sig <-? h_ec_key_copy sig_key
        else (h_cipher_key_destroy (Some (hrk_node new_root_keys)) ;;; h_cipher_key_destroy (Some (hrk_remote new_root_keys)) ;;; free (hrk_addr new_root_keys)) ;;
      let keys := {| hrk_addr := hrk_addr new_root_keys; hrk_sig := sig; hrk_node := hrk_node new_root_keys; hrk_remote := hrk_remote new_root_keys |} in
      new_ctx <-! h_ctx_gen_with_root_keys (Some i) (Some keys) (Some id) (3 + s)%nat ;;
      h_root_keys_destroy (Some keys) ;;;
      hret new_ctx
  | _, _ => hret None
  end.
(* wickr_ctx.c:152-177: the generated result is used without a test; when the recovery key cannot
   be copied it is released with NULL in that place *)
Definition h_ctx_gen_with_recovery (info : option hdi) (recovery_data : option hbuf) (recovery_key : option hck) (identifier : option hbuf)
    (s : nat) (draft : bytes) : H (option hgr) :=
  match info, recovery_data, recovery_key, identifier with
  | Some i, Some d, Some rk, Some id =>
      root_keys <-? h_ctx_gen_import_recovery P (Some d) (Some rk) draft else hret tt ;;
      g <-! h_ctx_gen_with_root_keys (Some i) (Some root_keys) (Some id) s ;;
      h_root_keys_destroy (Some root_keys) ;;;
      match g with
      | None => hub
      | Some r =>
          touch (hgr_addr r) ;;;
          h_cipher_key_destroy (Some (hgr_recovery r)) ;;;
          k <-? h_cipher_key_copy (Some rk) else (h_ctx_destroy (Some (hgr_ctx r)) ;;; h_root_keys_destroy (Some (hgr_root r)) ;;; free (hgr_addr r)) ;;
          hret (Some {| hgr_addr := hgr_addr r; hgr_ctx := hgr_ctx r; hgr_recovery := k; hgr_root := hgr_root r |})
      end
  | _, _, _, _ => hret None
  end.
(* wickr_ctx.c:102-125 *)
Definition h_ctx_gen_with_passphrase (info : option hdi) (exported_recovery_key passphrase recovery_data identifier : option hbuf)
    (s : nat) (draft1 draft2 : bytes) : H (option hgr) :=
  match info, exported_recovery_key, passphrase, recovery_data, identifier with
  | Some i, Some e, Some p, Some d, Some id =>
      recovery_key <-? h_open (h_kdf_decipher P (Some e) (Some p) draft1) h_cipher_key_from_bytes else hret tt ;;
      gen_result <-! h_ctx_gen_with_recovery (Some i) (Some d) (Some recovery_key) (Some id) s draft2 ;;
      h_cipher_key_destroy (Some recovery_key) ;;;
      hret gen_result
  | _, _, _, _, _ => hret None
  end.

(* storage.proto, context.proto, unpacked *)
Definition ctx_fields (m : pb_ctx) : list bytes := [] :: omsg storage_keys_fields (px_storage m) ++ omsg chain_fields (px_chain m).
(* wickr_ctx.c:520-548 *)
Definition h_ctx_from_message (info : hdi) (m : pb_ctx) : H (option hcx) :=
  match px_chain m, px_storage m with
  | Some mc, Some ms =>
      id_chain <-? h_chain_from_message P (Some mc) else hret tt ;;
      storage_keys <-? h_storage_keys_from_message ms else h_chain_destroy (Some id_chain) ;;
      c <-? h_ctx_create (Some info) (Some id_chain) (Some storage_keys) else (h_chain_destroy (Some id_chain) ;;; h_storage_keys_destroy (Some storage_keys)) ;;
      hret (Some c)
  | _, _ => hret None
  end.
(* wickr_ctx.c:576-591 *)
Definition h_ctx_from_bytes (info : hdi) : bytes -> H (option hcx) := from_proto pb_ctx_unpack ctx_fields (h_ctx_from_message info).
(* wickr_ctx.c:611-631 *)
Definition h_ctx_import (info : option hdi) (exported passphrase : option hbuf) (draft : bytes) : H (option hcx) :=
  match info, exported, passphrase with
  | Some i, Some e, Some p => h_open (h_kdf_decipher P (Some e) (Some p) draft) (h_ctx_from_bytes i)
  | _, _, _ => hret None
  end.

End Context.
