(* What the file properties talk about. *)
From Verif.Base Require Import Bytes Monad.
From Verif.Model Require Import Cipher Prims Files.
Local Open Scope N_scope.

(* AES-GCM and AES-CTR are stream ciphers: a prefix of the input gives a prefix of the output,
   and GCM deciphers with the key stream it enciphers with *)
Definition stream_ok (P : prims) : Prop :=
  (forall k iv a b, firstn (length a) (fst (p_gcm_enc P k iv [] (a ++ b)%list)) = fst (p_gcm_enc P k iv [] a)) /\
  (forall k iv a b, firstn (length a) (p_ctr P k iv (a ++ b)%list) = p_ctr P k iv a) /\
  (forall k iv ct tag pt, p_gcm_dec P k iv [] ct tag = Some pt -> fst (p_gcm_enc P k iv [] ct) = pt).

(* the encrypted form of a file: mode byte, nonce, tag for GCM, ciphertext *)
Definition encrypted_file (P : prims) (k : cipher_key) (iv plain : bytes) : bytes :=
  match ck_cipher k with
  | AES256_GCM => x00 :: iv ++ snd (p_gcm_enc P (ck_data k) iv [] plain) ++ fst (p_gcm_enc P (ck_data k) iv [] plain)
  | AES256_CTR => x01 :: iv ++ p_ctr P (ck_data k) iv plain
  end%list.
(* [plain] is what the encrypted file [file] holds under the key: for GCM the tag was verified *)
Definition opened_file (P : prims) (k : cipher_key) (only_auth : bool) (file plain : bytes) : Prop :=
  (exists iv tag ct, file = (x00 :: iv ++ tag ++ ct)%list /\ length iv = 12%nat /\ length tag = 16%nat /\
     p_gcm_dec P (ck_data k) iv [] ct tag = Some plain) \/
  (only_auth = false /\ exists iv ct, file = (x01 :: iv ++ ct)%list /\ length iv = 16%nat /\ plain = p_ctr P (ck_data k) iv ct).

(* GCM takes at most 2^36 - 32 bytes *)
Definition fits (k : cipher_key) (plain : bytes) : Prop := ck_cipher k = AES256_GCM -> blen plain <= 2 ^ 36 - 32.

(* kinds of failures that do not happen *)
Definition reads_fine (o : os) : Prop := forall i, os_read o i = None.
Definition closes_fine (o : os) : Prop := os_close o = None.
Definition no_failures (o : os) : Prop :=
  os_open_source o = false /\ os_open_temp o = false /\ reads_fine o /\ (forall i, os_write o i = None) /\
  closes_fine o /\ os_rename o = false /\ os_remove o = false /\ forall n, blen (os_junk o n) = n.

(* the numbers of files in use are below the next free one *)
Definition fs_ok (f : fs) : Prop := forall p i, fs_names f p = Some i -> (i < fs_next f)%nat.
(* the temporary file's name is the destination's followed by ".temp" *)
Definition temp_of (destination : bytes) : bytes := (destination ++ [x2e; x74; x65; x6d; x70])%list.
(* the path names another file than the temporary file does *)
Definition not_temp (f : fs) (p destination : bytes) : Prop :=
  p <> temp_of destination /\ forall i, fs_names f p = Some i -> fs_names f (temp_of destination) <> Some i.

(* a run starts with these files, no state but the present one seen, and this many random draws made *)
Definition start (f : fs) (draws : nat) : world :=
  {| w_fs := f; w_log := [(0%nat, fun _ => f)]; w_reads := 0; w_writes := 0; w_rand := draws |}.
(* the files were once as in f: what a crash may leave *)
Definition seen (w : world) (f : fs) : Prop := exists n g k, In (n, g) (w_log w) /\ (k <= n)%nat /\ f = g k.
(* ... during the run or at its end *)
Definition visible (w : world) (f : fs) : Prop := f = w_fs w \/ seen w f.
