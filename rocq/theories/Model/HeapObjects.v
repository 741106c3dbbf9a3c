(* The create, copy and destroy functions of the library's objects on the heap of Model/Heap.v.
   A pointer to an object is an [option] of a record: the block of the structure, the values of
   its fields, and the pointers it owns.  [x_value] is the object the functional model
   (Model/*.v) works with; [x_cells] the blocks the object owns with what they hold.
   A destroy function is given the pointer; it also sets it to NULL, so that no caller can
   use the freed blocks again (not modelled: the Gallina value is dropped). *)
From Verif.Base Require Import Bytes.
From Verif.Model Require Import Buffer Cipher Ecdsa Kdf Fingerprint Identity Node Stream TransportPacket EcdhCipher Handshake Transport Keys Payload Exchange Packet Ctx Heap.
Local Open Scope N_scope.
Local Open Scope h_scope.

Definition cells_opt {T} (cells : T -> list cell) (o : option T) : list cell := match o with Some x => cells x | None => [] end.
Definition one_cell (a : block) (c : bytes) : list cell := [(a, c)].
Definition struct_cell (a : block) : list cell := one_cell a [].

(* ---- buffer.c; buffer.h: wickr_buffer_t ---- *)
(* [b_bytes]: what the data block held when the buffer was filled; length is its length *)
Record hbuf := { b_addr : block; b_data : block; b_bytes : bytes }.
Definition buf_cells (b : hbuf) : list cell := struct_cell (b_addr b) ++ one_cell (b_data b) (b_bytes b).
(* buffer.c:27-54; the content malloc leaves behind is taken to be zeros *)
Definition h_buffer_create_empty (len : N) : H (option hbuf) :=
  if (MAX_BUFFER_SIZE <? len) || (len =? 0) then hret None
  else
    a <-? alloc T_buffer [] else hret tt ;;
    d <-? alloc T_data (repeat x00 (N.to_nat len)) else free a ;;
    hret (Some {| b_addr := a; b_data := d; b_bytes := repeat x00 (N.to_nat len) |}).
(* buffer.c:61-76; [c]: the bytes pointed to *)
Definition h_buffer_create (c : bytes) : H (option hbuf) :=
  new <-? h_buffer_create_empty (blen c) else hret tt ;;
  store (b_data new) c ;;;
  hret (Some {| b_addr := b_addr new; b_data := b_data new; b_bytes := c |}).
(* buffer.c:78-84 *)
Definition h_buffer_copy (source : option hbuf) : H (option hbuf) :=
  match source with
  | None => hret None
  | Some s => touch (b_addr s) ;;; c <-! load (b_data s) ;; h_buffer_create c
  end.
(* buffer.c:222-231 *)
Definition h_buffer_destroy (buffer : option hbuf) : H unit :=
  match buffer with
  | None => hret tt
  | Some b => touch (b_addr b) ;;; free (b_data b) ;;; free (b_addr b)
  end.
(* buffer.c:212-220 *)
Definition h_buffer_destroy_zero (buffer : option hbuf) : H unit :=
  match buffer with
  | None => hret tt
  | Some b => touch (b_addr b) ;;; zero (b_data b) (blen (b_bytes b)) ;;; h_buffer_destroy (Some b)
  end.

(* ---- eckey.c ---- *)
Record hkey := { hkey_addr : block; hkey_curve : curve; hkey_pub : hbuf; hkey_pri : option hbuf }.
Definition key_cells (k : hkey) : list cell := struct_cell (hkey_addr k) ++ buf_cells (hkey_pub k) ++ cells_opt buf_cells (hkey_pri k).
Definition key_value (k : hkey) : ec_key :=
  {| ek_curve := hkey_curve k; ek_pub := b_bytes (hkey_pub k); ek_pri := option_map b_bytes (hkey_pri k) |}.
(* eckey.c:6-18; the allocation is not tested *)
Definition h_ec_key_create (c : curve) (pub pri : option hbuf) : H (option hkey) :=
  match pub with
  | None => hret None
  | Some p => a <-# alloc T_ec_key [] ;; hret (Some {| hkey_addr := a; hkey_curve := c; hkey_pub := p; hkey_pri := pri |})
  end.
(* eckey.c:20-44 *)
Definition h_ec_key_copy (source : option hkey) : H (option hkey) :=
  match source with
  | None => hret None
  | Some k =>
      touch (hkey_addr k) ;;;
      pub <-? h_buffer_copy (Some (hkey_pub k)) else hret tt ;;
      match hkey_pri k with
      | None => h_ec_key_create (hkey_curve k) (Some pub) None
      | Some q => pri <-? h_buffer_copy (Some q) else h_buffer_destroy (Some pub) ;;
                  h_ec_key_create (hkey_curve k) (Some pub) (Some pri)
      end
  end.
(* eckey.c:80-90 *)
Definition h_ec_key_destroy (key : option hkey) : H unit :=
  match key with
  | None => hret tt
  | Some k => touch (hkey_addr k) ;;; h_buffer_destroy_zero (Some (hkey_pub k)) ;;; h_buffer_destroy_zero (hkey_pri k) ;;; free (hkey_addr k)
  end.

(* ---- ecdsa.c ---- *)
Record hsig := { hsig_addr : block; hsig_curve : curve; hsig_digest : digest; hsig_data : hbuf }.
Definition sig_cells (s : hsig) : list cell := struct_cell (hsig_addr s) ++ buf_cells (hsig_data s).
Definition sig_value (s : hsig) : ecdsa_result :=
  {| es_curve := hsig_curve s; es_digest := hsig_digest s; es_sig := b_bytes (hsig_data s) |}.
(* ecdsa.c:8-20; the allocation is not tested *)
Definition h_ecdsa_result_create (c : curve) (d : digest) (data : option hbuf) : H (option hsig) :=
  match data with
  | None => hret None
  | Some b => a <-# alloc T_ecdsa_result [] ;; hret (Some {| hsig_addr := a; hsig_curve := c; hsig_digest := d; hsig_data := b |})
  end.
(* ecdsa.c:79-88 *)
Definition h_ecdsa_result_copy (source : option hsig) : H (option hsig) :=
  match source with
  | None => hret None
  | Some s => touch (hsig_addr s) ;;; o <-! h_buffer_copy (Some (hsig_data s)) ;; h_ecdsa_result_create (hsig_curve s) (hsig_digest s) o
  end.
(* ecdsa.c:90-99 *)
Definition h_ecdsa_result_destroy (result : option hsig) : H unit :=
  match result with
  | None => hret tt
  | Some s => touch (hsig_addr s) ;;; h_buffer_destroy (Some (hsig_data s)) ;;; free (hsig_addr s)
  end.

(* ---- cipher.c ---- *)
Record hck := { hck_addr : block; hck_cipher : cipher; hck_data : hbuf }.
Definition ck_cells (k : hck) : list cell := struct_cell (hck_addr k) ++ buf_cells (hck_data k).
Definition ck_value (k : hck) : cipher_key := {| ck_cipher := hck_cipher k; ck_data := b_bytes (hck_data k) |}.
(* cipher.c:166-177; the allocation is not tested *)
Definition h_cipher_key_create (c : cipher) (data : option hbuf) : H (option hck) :=
  match data with
  | None => hret None
  | Some b =>
      touch (b_addr b) ;;;
      if blen (b_bytes b) =? key_len c
      then a <-# alloc T_cipher_key [] ;; hret (Some {| hck_addr := a; hck_cipher := c; hck_data := b |})
      else hret None
  end.
(* cipher.c:179-198 *)
Definition h_cipher_key_copy (source : option hck) : H (option hck) :=
  match source with
  | None => hret None
  | Some k =>
      touch (hck_addr k) ;;;
      d <-? h_buffer_copy (Some (hck_data k)) else hret tt ;;
      c <-? h_cipher_key_create (hck_cipher k) (Some d) else h_buffer_destroy_zero (Some d) ;;
      hret (Some c)
  end.
(* cipher.c:200-209 *)
Definition h_cipher_key_destroy (key : option hck) : H unit :=
  match key with
  | None => hret tt
  | Some k => touch (hck_addr k) ;;; h_buffer_destroy_zero (Some (hck_data k)) ;;; free (hck_addr k)
  end.

Record hcr := { hcr_addr : block; hcr_cipher : cipher; hcr_iv : hbuf; hcr_text : option hbuf; hcr_tag : option hbuf }.
Definition cr_cells (r : hcr) : list cell :=
  struct_cell (hcr_addr r) ++ buf_cells (hcr_iv r) ++ cells_opt buf_cells (hcr_text r) ++ cells_opt buf_cells (hcr_tag r).
Definition cr_value (r : hcr) : cipher_result :=
  {| cr_cipher := hcr_cipher r; cr_iv := b_bytes (hcr_iv r); cr_text := option_map b_bytes (hcr_text r); cr_tag := option_map b_bytes (hcr_tag r) |}.
(* cipher.c:16-42; the allocation is not tested *)
Definition h_cipher_result_create (c : cipher) (iv text tag : option hbuf) : H (option hcr) :=
  match iv with
  | None => hret None
  | Some i =>
      touch (b_addr i) ;;;
      if negb (blen (b_bytes i) =? iv_len c) then hret None
      else
        match tag with
        | None =>
            if is_authenticated c then hret None
            else a <-# alloc T_cipher_result [] ;;
                 hret (Some {| hcr_addr := a; hcr_cipher := c; hcr_iv := i; hcr_text := text; hcr_tag := None |})
        | Some t =>
            touch (b_addr t) ;;;
            if negb (blen (b_bytes t) =? auth_tag_len c) then hret None
            else a <-# alloc T_cipher_result [] ;;
                 hret (Some {| hcr_addr := a; hcr_cipher := c; hcr_iv := i; hcr_text := text; hcr_tag := Some t |})
        end
  end.
(* cipher.c:44-59 *)
Definition h_cipher_result_copy (source : option hcr) : H (option hcr) :=
  match source with
  | None => hret None
  | Some r =>
      touch (hcr_addr r) ;;;
      iv <-! h_buffer_copy (Some (hcr_iv r)) ;;
      text <-! h_buffer_copy (hcr_text r) ;;
      tag <-! h_buffer_copy (hcr_tag r) ;;
      h_cipher_result_create (hcr_cipher r) iv text tag
  end.
(* cipher.c:61-74 *)
Definition h_cipher_result_destroy (result : option hcr) : H unit :=
  match result with
  | None => hret tt
  | Some r => touch (hcr_addr r) ;;; h_buffer_destroy (Some (hcr_iv r)) ;;; h_buffer_destroy (hcr_text r) ;;; h_buffer_destroy (hcr_tag r) ;;;
              free (hcr_addr r)
  end.

(* ---- kdf.c ---- *)
Record hkm := { hkm_addr : block; hkm_algo : kdf_algo; hkm_salt : option hbuf; hkm_info : option hbuf }.
Definition km_cells (m : hkm) : list cell := struct_cell (hkm_addr m) ++ cells_opt buf_cells (hkm_salt m) ++ cells_opt buf_cells (hkm_info m).
Definition km_value (m : hkm) : kdf_meta :=
  {| km_algo := hkm_algo m; km_salt := option_map b_bytes (hkm_salt m); km_info := option_map b_bytes (hkm_info m) |}.
(* kdf.c:32-57 *)
Definition h_kdf_meta_create (a : kdf_algo) (salt info : option hbuf) : H (option hkm) :=
  let make := x <-? alloc T_kdf_meta [] else hret tt ;;
              hret (Some {| hkm_addr := x; hkm_algo := a; hkm_salt := salt; hkm_info := info |}) in
  match ka_kind a with
  | KDF_HMAC_SHA2 => match salt, info with None, None => hret None | _, _ => make end
  | _ => match salt with
         | None => hret None
         | Some s => touch (b_addr s) ;;; if blen (b_bytes s) =? ka_salt_size a then make else hret None
         end
  end.
(* kdf.c:142-162; what was copied is not released when the last step fails *)
Definition h_kdf_meta_copy (source : option hkm) : H (option hkm) :=
  match source with
  | None => hret None
  | Some m =>
      touch (hkm_addr m) ;;;
      salt <-? h_buffer_copy (hkm_salt m) for hkm_salt m else hret tt ;;
      info <-? h_buffer_copy (hkm_info m) for hkm_info m else h_buffer_destroy salt ;;
      h_kdf_meta_create (hkm_algo m) salt info
  end.
(* kdf.c:164-174 *)
Definition h_kdf_meta_destroy (meta : option hkm) : H unit :=
  match meta with
  | None => hret tt
  | Some m => touch (hkm_addr m) ;;; h_buffer_destroy_zero (hkm_salt m) ;;; h_buffer_destroy (hkm_info m) ;;; free (hkm_addr m)
  end.

Record hkr := { hkr_addr : block; hkr_meta : hkm; hkr_hash : hbuf }.
Definition kr_cells (r : hkr) : list cell := struct_cell (hkr_addr r) ++ km_cells (hkr_meta r) ++ buf_cells (hkr_hash r).
Definition kr_value (r : hkr) : kdf_result := {| kr_meta := km_value (hkr_meta r); kr_hash := b_bytes (hkr_hash r) |}.
(* kdf.c:176-192 *)
Definition h_kdf_result_create (meta : option hkm) (hash : option hbuf) : H (option hkr) :=
  match meta, hash with
  | Some m, Some b => x <-? alloc T_kdf_result [] else hret tt ;; hret (Some {| hkr_addr := x; hkr_meta := m; hkr_hash := b |})
  | _, _ => hret None
  end.
(* kdf.c:194-214; what was copied is not released when the last step fails *)
Definition h_kdf_result_copy (source : option hkr) : H (option hkr) :=
  match source with
  | None => hret None
  | Some r =>
      touch (hkr_addr r) ;;;
      m <-? h_kdf_meta_copy (Some (hkr_meta r)) else hret tt ;;
      b <-? h_buffer_copy (Some (hkr_hash r)) else h_kdf_meta_destroy (Some m) ;;
      h_kdf_result_create (Some m) (Some b)
  end.
(* kdf.c:216-227 *)
Definition h_kdf_result_destroy (result : option hkr) : H unit :=
  match result with
  | None => hret tt
  | Some r => touch (hkr_addr r) ;;; h_buffer_destroy_zero (Some (hkr_hash r)) ;;; h_kdf_meta_destroy (Some (hkr_meta r)) ;;; free (hkr_addr r)
  end.

(* ---- fingerprint.c ---- *)
Record hfp := { hfp_addr : block; hfp_type : fingerprint_type; hfp_data : hbuf }.
Definition fp_cells (f : hfp) : list cell := struct_cell (hfp_addr f) ++ buf_cells (hfp_data f).
Definition fp_value (f : hfp) : fingerprint := {| fp_type := hfp_type f; fp_data := b_bytes (hfp_data f) |}.
(* fingerprint.c:122-138 *)
Definition h_fingerprint_create (ty : fingerprint_type) (data : option hbuf) : H (option hfp) :=
  match data with
  | None => hret None
  | Some b => x <-? alloc T_fingerprint [] else hret tt ;; hret (Some {| hfp_addr := x; hfp_type := ty; hfp_data := b |})
  end.
(* fingerprint.c:140-159 *)
Definition h_fingerprint_copy (source : option hfp) : H (option hfp) :=
  match source with
  | None => hret None
  | Some f =>
      touch (hfp_addr f) ;;;
      d <-? h_buffer_copy (Some (hfp_data f)) else hret tt ;;
      c <-? h_fingerprint_create (hfp_type f) (Some d) else h_buffer_destroy (Some d) ;;
      hret (Some c)
  end.
(* fingerprint.c:161-170 *)
Definition h_fingerprint_destroy (fingerprint : option hfp) : H unit :=
  match fingerprint with
  | None => hret tt
  | Some f => touch (hfp_addr f) ;;; h_buffer_destroy (Some (hfp_data f)) ;;; free (hfp_addr f)
  end.

(* ---- array.c ---- *)
(* The pointers are kept in [harr_items]; the bytes of the store, 8 for each item, stand for the
   place they use (zeros: pointers are not bytes here).  Only owning (deep) copies and
   destructions: a shallow copy shares its items, so it is not a tree (see Model/Array.v). *)
Record harr (T : Type) := { harr_addr : block; harr_store : option (block * block); harr_items : list (option T) }.
Arguments harr_addr {T}. Arguments harr_store {T}. Arguments harr_items {T}.
Definition store_buf (n : nat) (ad : block * block) : hbuf :=
  {| b_addr := fst ad; b_data := snd ad; b_bytes := repeat x00 (N.to_nat (8 * N.of_nat n)) |}.
Definition arr_store {T} (a : harr T) : option hbuf := option_map (store_buf (length (harr_items a))) (harr_store a).
Definition arr_cells {T} (cells : T -> list cell) (a : harr T) : list cell :=
  struct_cell (harr_addr a) ++ cells_opt buf_cells (arr_store a) ++ flat_map (cells_opt cells) (harr_items a).
Definition arr_value {T V} (value : T -> V) (a : harr T) : list (option V) := map (option_map value) (harr_items a).
Section array.
  Context {T : Type} (item_copy : option T -> H (option T)) (item_destroy : option T -> H unit).
  (* array.c:15-48 *)
  Definition h_array_new (count : nat) : H (option (harr T)) :=
    if Nat.eqb count 0
    then x <-? alloc T_array [] else hret tt ;; hret (Some {| harr_addr := x; harr_store := None; harr_items := [] |})
    else
      st <-? h_buffer_create_empty (8 * N.of_nat count) else hret tt ;;
      x <-? alloc T_array [] else h_buffer_destroy (Some st) ;;
      hret (Some {| harr_addr := x; harr_store := Some (b_addr st, b_data st); harr_items := repeat None count |}).
  (* array.c:77-101 with copy = true; writing the pointer stays inside the store (C03) *)
  Definition h_array_set_item (a : harr T) (i : nat) (item : option T) : H (bool * harr T) :=
    touch (harr_addr a) ;;;
    match nth_error (harr_items a) i with
    | None => hret (false, a)
    | Some old =>
        y <-! match item with Some x => item_copy (Some x) | None => hret None end ;;
        match item, y with
        | Some _, None => hret (false, a)
        | _, _ =>
            item_destroy old ;;;
            hret (true, {| harr_addr := harr_addr a; harr_store := harr_store a;
                           harr_items := firstn i (harr_items a) ++ y :: skipn (S i) (harr_items a) |})
        end
    end.
  Fixpoint h_destroy_items (l : list (option T)) : H unit :=
    match l with
    | [] => hret tt
    | o :: rest => item_destroy o ;;; h_destroy_items rest
    end.
  (* array.c:139-159 with destroy_items = true *)
  Definition h_array_destroy (array : option (harr T)) : H unit :=
    match array with
    | None => hret tt
    | Some a => touch (harr_addr a) ;;; h_destroy_items (harr_items a) ;;; h_buffer_destroy (arr_store a) ;;; free (harr_addr a)
    end.
  (* array.c:119-137 with deep_copy = true; [copy]: the new array, [i]: the loop's index *)
  Fixpoint h_copy_items (l : list (option T)) (i : nat) (copy : option (harr T)) : H (option (harr T)) :=
    match l with
    | [] => hret copy
    | item :: rest =>
        match copy with
        | None => hret None
        | Some c =>
            r <-! h_array_set_item c i item ;;
            if fst r then h_copy_items rest (S i) (Some (snd r))
            else h_array_destroy (Some (snd r)) ;;; hret None
        end
    end.
  Definition h_array_copy (array : option (harr T)) : H (option (harr T)) :=
    match array with
    | None => hret None
    | Some a =>
        touch (harr_addr a) ;;;
        c <-! h_array_new (length (harr_items a)) ;;
        h_copy_items (harr_items a) 0 c
    end.
End array.
