(* C54-C56 and C63: encryption, decryption and digests of files *)
From Verif.Base Require Import Bytes Monad.
From Verif.Model Require Import Buffer Cipher Ecdsa Prims Engine Files.
From Verif.Spec Require Import BufferSpec CodecSpec FileSpec.
From Verif.Proofs Require Import BytesFacts CodecFacts EngineFacts FileFacts FileProps ToyPrims.
Local Open Scope N_scope.

Lemma toy_stream : stream_ok toy.
Proof.
  split; [|split].
  - intros k iv a b. cbn [toy p_gcm_enc fst]. rewrite map_app, firstn_app, map_length, Nat.sub_diag, firstn_all2 by (rewrite map_length; auto).
    cbn [firstn]. apply app_nil_r.
  - intros k iv a b. cbn [toy p_ctr]. rewrite map_app, firstn_app, map_length, Nat.sub_diag, firstn_all2 by (rewrite map_length; auto).
    cbn [firstn]. apply app_nil_r.
  - intros k iv ct tag pt. cbn [toy p_gcm_dec p_gcm_enc fst]. destruct (beqb _ _); [|discriminate]. intros H. apply Some_inj in H. exact H.
Qed.

(* --- a file system with the files "a" and "d", and an operating system without failures *)
Definition path_a : bytes := [x61]. Definition path_d : bytes := [x64]. Definition path_e : bytes := [x65].
Definition demo_fs (a d : bytes) : fs :=
  {| fs_names := fun p => if beqb p path_a then Some 0%nat else if beqb p path_d then Some 1%nat else None;
     fs_data := fun i => match i with 0%nat => a | 1%nat => d | _ => [] end; fs_next := 2%nat |}.
Definition good_os : os := {| os_open_source := false; os_open_temp := false; os_read := fun _ => None; os_write := fun _ => None;
  os_close := None; os_rename := false; os_remove := false; os_junk := fun n => repeat xff (N.to_nat n) |}.
Definition file_key : cipher_key := {| ck_cipher := AES256_GCM; ck_data := repeat x01 32 |}.
Lemma good_os_fine : no_failures good_os.
Proof. repeat split. intros n. unfold blen. cbn [good_os os_junk]. rewrite repeat_length. apply N2Nat.id. Qed.
Lemma demo_fs_ok a d : fs_ok (demo_fs a d).
Proof. intros p i. cbn [demo_fs fs_names fs_next]. destruct (beqb p path_a); [intros H; apply Some_inj in H; subst i; auto|]. destruct (beqb p path_d); [|discriminate]. intros H; apply Some_inj in H; subst i; auto. Qed.
Lemma demo_not_temp a d p : p = path_a \/ p = path_d -> not_temp (demo_fs a d) p path_d.
Proof. intros [->| ->]; (split; [discriminate|]; intros i _; discriminate). Qed.
Definition file_at (f : fs) (p : bytes) (b : bytes) : bool := match content f p with Some c => beqb c b | None => false end.
Definition missing (f : fs) (p : bytes) : bool := match content f p with Some _ => false | None => true end.
Definition world_of {A} (x : res A * world) : world := snd x.
Definition is_true (x : res bool * world) : bool := match fst x with Val b => b | _ => false end.

(* C54 *)
(* without failures every file that fits is encrypted, and the output is mode, nonce, tag and ciphertext of the
   whole contents: the 4096 bytes of the loop do not appear *)
Theorem C54_file_contents : forall P o k s d f n plain iv, aead_ok P -> ctr_ok P -> stream_ok P -> rand_ok P -> no_failures o ->
  fs_ok f -> not_temp f s d -> good_key k -> content f s = Some plain -> fits k plain -> p_rand P n (iv_len (ck_cipher k)) = Some iv ->
  exists w, file_encrypt P o (Some k) (Some s) (Some d) (start f n) = (Val true, w) /\ content (w_fs w) d = Some (encrypted_file P k iv plain).
Proof. exact encrypts. Qed.
Print Assumptions C54_file_contents.
(* the same loop with pieces of any other size writes the same bytes *)
Theorem C54_any_chunk_size : forall P o chunk c k iv src dst w r w', aead_ok P -> ctr_ok P -> stream_ok P -> no_failures o -> (0 < chunk)%nat -> src <> dst ->
  evp_fits c (fs_data (w_fs w) src) = true ->
  crypt_loop P o chunk (loop_fuel (w_fs w) src) c k iv [] src 0 dst (length (fs_data (w_fs w) dst)) w = (r, w') ->
  r = Val (Some (fs_data (w_fs w) src)) /\
  fs_data (w_fs w') dst = (fs_data (w_fs w) dst ++ match c with AES256_GCM => fst (p_gcm_enc P k iv [] (fs_data (w_fs w) src)) | AES256_CTR => p_ctr P k iv (fs_data (w_fs w) src) end)%list.
Proof. exact loop_chunks. Qed.
Print Assumptions C54_any_chunk_size.
(* encrypting the contents in memory with the same random draw gives the same bytes *)
Theorem C54_same_as_in_memory : forall P k plain n r n', aead_ok P -> ctr_ok P ->
  aes256_encrypt P (Some plain) None (Some k) None n = (Val r, n') ->
  p_rand P n (iv_len (ck_cipher k)) = Some (cr_iv r) /\ encrypted_file P k (cr_iv r) plain = result_wire r.
Proof. exact same_as_memory. Qed.
Print Assumptions C54_same_as_in_memory.
(* whatever encryption wrote, any copy of it decrypts, to any place, to the original: for empty files and
   for any size *)
Theorem C54_round_trip : forall P o k s d f n plain iv, aead_ok P -> ctr_ok P -> stream_ok P -> rand_ok P -> no_failures o ->
  fs_ok f -> not_temp f s d -> good_key k -> content f s = Some plain -> fits k plain -> p_rand P n (iv_len (ck_cipher k)) = Some iv ->
  exists w, file_encrypt P o (Some k) (Some s) (Some d) (start f n) = (Val true, w) /\
    forall only_auth s' d' f' n', fs_ok f' -> not_temp f' s' d' -> (only_auth = true -> ck_cipher k = AES256_GCM) ->
      content f' s' = content (w_fs w) d ->
      exists w', file_decrypt P o (Some k) (Some s') (Some d') only_auth (start f' n') = (Val true, w') /\ content (w_fs w') d' = Some plain.
Proof. exact round_trip. Qed.
Print Assumptions C54_round_trip.
Definition long_file : bytes := (repeat x41 4096 ++ [x42])%list.
Example C54_case : let x := file_encrypt toy good_os (Some file_key) (Some path_a) (Some path_d) (start (demo_fs long_file [x01]) 7) in
  let y := file_decrypt toy good_os (Some file_key) (Some path_d) (Some path_e) true (start (w_fs (world_of x)) 0) in
  is_true x && is_true y && file_at (w_fs (world_of y)) path_e long_file && negb (file_at (w_fs (world_of x)) path_d long_file) = true.
Proof. vm_compute. reflexivity. Qed.
Example C54_case_empty : let x := file_encrypt toy good_os (Some file_key) (Some path_a) (Some path_d) (start (demo_fs [] [x01]) 7) in
  let y := file_decrypt toy good_os (Some file_key) (Some path_d) (Some path_e) true (start (w_fs (world_of x)) 0) in
  is_true x && is_true y && file_at (w_fs (world_of y)) path_e [] = true.
Proof. vm_compute. reflexivity. Qed.
Example C54_case_hypotheses : no_failures good_os /\ fs_ok (demo_fs long_file [x01]) /\ not_temp (demo_fs long_file [x01]) path_a path_d /\ good_key file_key /\
  fits file_key long_file /\ p_rand toy 7 12 <> None.
Proof. split; [exact good_os_fine|]. split; [apply demo_fs_ok|]. split; [apply demo_not_temp; auto|]. split; [reflexivity|]. split; [intros _; vm_compute; discriminate|discriminate]. Qed.

(* C55 *)
(* "at every point the destination is untouched or complete" for encryption: proved when no read and no close
   fails and the temporary name is not another name of the source or destination *)
Theorem C55_encrypt_crash_partial : forall P o k s d f n r w g, aead_ok P -> ctr_ok P -> stream_ok P -> fs_ok f -> not_temp f s d -> not_temp f d d ->
  reads_fine o -> closes_fine o ->
  file_encrypt P o (Some k) (Some s) (Some d) (start f n) = (r, w) -> visible w g ->
  content g d = content f d \/
  exists plain iv, content f s = Some plain /\ blen iv = iv_len (ck_cipher k) /\ content g d = Some (encrypted_file P k iv plain).
Proof. exact encrypt_crash. Qed.
Print Assumptions C55_encrypt_crash_partial.
(* for decryption reads may fail too: what appears at the destination was verified with its tag (or, with
   the unauthenticated cipher allowed, deciphered) *)
Theorem C55_decrypt_crash_partial : forall P o k only_auth s d f n r w g, aead_ok P -> ctr_ok P -> stream_ok P -> fs_ok f -> not_temp f s d -> not_temp f d d ->
  closes_fine o ->
  file_decrypt P o (Some k) (Some s) (Some d) only_auth (start f n) = (r, w) -> visible w g ->
  content g d = content f d \/
  exists file m plain, content f s = Some file /\ opened_file P k only_auth (firstn m file) plain /\
    (reads_fine o -> firstn m file = file) /\ content g d = Some plain.
Proof. exact decrypt_crash. Qed.
Print Assumptions C55_decrypt_crash_partial.
(* whatever fails, a failed operation leaves the destination as it was, and the temporary file is gone unless
   removing it fails (or nothing was ever changed) *)
Theorem C55_failure : forall P o k s d f n only_auth w, fs_ok f -> not_temp f d d ->
  (file_encrypt P o (Some k) (Some s) (Some d) (start f n) = (Val false, w) \/
   file_decrypt P o (Some k) (Some s) (Some d) only_auth (start f n) = (Val false, w)) ->
  content (w_fs w) d = content f d /\ (os_remove o = false -> content (w_fs w) (temp_of d) = None \/ w_fs w = f).
Proof. exact both_failure. Qed.
Print Assumptions C55_failure.
(* the same for the temporary file after success *)
Theorem C55_no_temporary_file : forall P o k s d f n only_auth b w, fs_ok f -> os_remove o = false ->
  (file_encrypt P o (Some k) (Some s) (Some d) (start f n) = (Val b, w) \/
   file_decrypt P o (Some k) (Some s) (Some d) only_auth (start f n) = (Val b, w)) ->
  content (w_fs w) (temp_of d) = None \/ w_fs w = f.
Proof. exact both_no_temp. Qed.
Print Assumptions C55_no_temporary_file.
(* at every point, whatever fails, every other file is as it was; in particular the source *)
Theorem C55_other_files : forall P o k s d f n only_auth r w p g, fs_ok f -> p <> d -> not_temp f p d ->
  (file_encrypt P o (Some k) (Some s) (Some d) (start f n) = (r, w) \/
   file_decrypt P o (Some k) (Some s) (Some d) only_auth (start f n) = (r, w)) ->
  visible w g -> content g p = content f p.
Proof. exact both_frame. Qed.
Print Assumptions C55_other_files.
(* and the call always answers *)
Theorem C55_answers : forall P o k s d f n only_auth r w, aead_ok P -> ctr_ok P -> stream_ok P -> fs_ok f -> not_temp f s d ->
  (file_encrypt P o (Some k) (Some s) (Some d) (start f n) = (r, w) \/
   file_decrypt P o (Some k) (Some s) (Some d) only_auth (start f n) = (r, w)) ->
  r = Val true \/ r = Val false.
Proof. exact both_answer. Qed.
Print Assumptions C55_answers.
(* the full statement is false: fclose's answer is ignored, and what it failed to write is renamed all the same *)
Definition close_fails : os := {| os_open_source := false; os_open_temp := false; os_read := fun _ => None; os_write := fun _ => None;
  os_close := Some [x00; x01]; os_rename := false; os_remove := false; os_junk := fun n => repeat xff (N.to_nat n) |}.
Theorem C55_close_refuted :
  let x := file_encrypt toy close_fails (Some file_key) (Some path_a) (Some path_d) (start (demo_fs [x41] [x42]) 7) in
  fst x = Val true /\ content (w_fs (world_of x)) path_d = Some [x00; x01] /\
  forall plain iv, blen iv = 12 -> [x00; x01] <> encrypted_file toy file_key iv plain.
Proof.
  split; [vm_compute; reflexivity|]. split; [vm_compute; reflexivity|]. intros plain iv L H. apply (f_equal (@length byte)) in H.
  unfold encrypted_file in H. cbn [file_key ck_cipher ck_data length] in H. rewrite app_length in H. unfold blen in L. apply (f_equal N.to_nat) in L. rewrite Nat2N.id in L. rewrite L in H. discriminate.
Qed.
Print Assumptions C55_close_refuted.
(* a wrong key, a failing write, a failing rename *)
Definition other_key : cipher_key := {| ck_cipher := AES256_GCM; ck_data := repeat x02 32 |}.
Definition write_fails : os := {| os_open_source := false; os_open_temp := false; os_read := fun _ => None; os_write := fun i => if Nat.eqb i 1 then Some 3%nat else None;
  os_close := None; os_rename := false; os_remove := false; os_junk := fun n => repeat xff (N.to_nat n) |}.
Definition rename_fails : os := {| os_open_source := false; os_open_temp := false; os_read := fun _ => None; os_write := fun i => None;
  os_close := None; os_rename := true; os_remove := false; os_junk := fun n => repeat xff (N.to_nat n) |}.
Example C55_case : let x := file_encrypt toy good_os (Some file_key) (Some path_a) (Some path_d) (start (demo_fs [x41; x42] [x01]) 7) in
  let y := file_decrypt toy good_os (Some other_key) (Some path_d) (Some path_a) true (start (w_fs (world_of x)) 0) in
  let z := file_encrypt toy write_fails (Some file_key) (Some path_a) (Some path_d) (start (demo_fs [x41; x42; x43; x44; x45] [x01]) 7) in
  let u := file_encrypt toy rename_fails (Some file_key) (Some path_a) (Some path_d) (start (demo_fs [x41; x42] [x01]) 7) in
  is_true x && negb (is_true y) && file_at (w_fs (world_of y)) path_a [x41; x42] && missing (w_fs (world_of y)) (temp_of path_a) &&
  negb (is_true z) && file_at (w_fs (world_of z)) path_d [x01] && missing (w_fs (world_of z)) (temp_of path_d) &&
  negb (is_true u) && file_at (w_fs (world_of u)) path_d [x01] && missing (w_fs (world_of u)) (temp_of path_d) = true.
Proof. vm_compute. reflexivity. Qed.
(* there are crash points with a half-written temporary file *)
Definition seen_at (w : world) (i k : nat) : option fs := match nth_error (w_log w) i with Some (n, g) => if Nat.leb k n then Some (g k) else None | None => None end.
Lemma seen_at_seen w i k g : seen_at w i k = Some g -> visible w g.
Proof.
  unfold seen_at. destruct (nth_error (w_log w) i) as [[n h]|] eqn:E; [|discriminate]. destruct (Nat.leb k n) eqn:L; [|discriminate]. intros H. apply Some_inj in H.
  right. exists n, h, k. split; [apply (nth_error_In _ _ E)|]. split; [apply Nat.leb_le; exact L|auto].
Qed.
Example C55_case_crash : match seen_at (world_of (file_encrypt toy good_os (Some file_key) (Some path_a) (Some path_d) (start (demo_fs [x41; x42] [x01]) 7))) 4 13 with
  | Some g => option_map (@length byte) (content g (temp_of path_d)) = Some 13%nat /\ content g path_d = Some [x01]
  | None => False
  end.
Proof. vm_compute. auto. Qed.
Example C55_case_hypotheses : not_temp (demo_fs [x41] [x01]) path_d path_d /\ not_temp (demo_fs [x41] [x01]) path_a path_d.
Proof. split; apply demo_not_temp; auto. Qed.

(* C56 *)
(* proved when no read and no close fails and the source is not the temporary file: then any copy of the
   destination decrypts to the complete source.  The destination may be the source itself. *)
Theorem C56_success_is_complete_partial : forall P o k s d f n w, aead_ok P -> ctr_ok P -> stream_ok P -> fs_ok f -> not_temp f s d -> reads_fine o -> closes_fine o ->
  file_encrypt P o (Some k) (Some s) (Some d) (start f n) = (Val true, w) ->
  content f s <> None /\
  forall o' only_auth s' d' f' n', no_failures o' -> fs_ok f' -> not_temp f' s' d' -> (only_auth = true -> ck_cipher k = AES256_GCM) ->
    content f' s' = content (w_fs w) d ->
    exists w', file_decrypt P o' (Some k) (Some s') (Some d') only_auth (start f' n') = (Val true, w') /\ content (w_fs w') d' = content f s.
Proof. exact success_complete. Qed.
Print Assumptions C56_success_is_complete_partial.
Definition read_fails : os := {| os_open_source := false; os_open_temp := false; os_read := fun i => Some 3%nat; os_write := fun i => None;
  os_close := None; os_rename := false; os_remove := false; os_junk := fun n => repeat xff (N.to_nat n) |}.
(* a read error is taken for the end of the file: success, and the rest of the file is missing *)
Theorem C56_read_error_refuted :
  let x := file_encrypt toy read_fails (Some file_key) (Some path_a) (Some path_d) (start (demo_fs [x41; x42; x43; x44; x45] []) 7) in
  let y := file_decrypt toy good_os (Some file_key) (Some path_d) (Some path_e) true (start (w_fs (world_of x)) 0) in
  fst x = Val true /\ fst y = Val true /\ content (w_fs (world_of y)) path_e = Some [x41; x42; x43].
Proof. split; [vm_compute; reflexivity|]. split; [vm_compute; reflexivity|vm_compute; reflexivity]. Qed.
Print Assumptions C56_read_error_refuted.
(* a source named "<destination>.temp" is emptied before it is read: success, and the contents are lost *)
Definition temp_fs : fs :=
  {| fs_names := fun p => if beqb p (temp_of path_d) then Some 0%nat else None; fs_data := fun i => match i with 0%nat => [x41; x42] | _ => [] end; fs_next := 1%nat |}.
Theorem C56_overlap_refuted :
  let x := file_encrypt toy good_os (Some file_key) (Some (temp_of path_d)) (Some path_d) (start temp_fs 7) in
  let y := file_decrypt toy good_os (Some file_key) (Some path_d) (Some path_e) true (start (w_fs (world_of x)) 0) in
  content temp_fs (temp_of path_d) = Some [x41; x42] /\ fst x = Val true /\ content (w_fs (world_of x)) (temp_of path_d) = None /\
  fst y = Val true /\ content (w_fs (world_of y)) path_e <> Some [x41; x42].
Proof. split; [reflexivity|]. split; [vm_compute; reflexivity|]. split; [vm_compute; reflexivity|]. split; [vm_compute; reflexivity|]. vm_compute. discriminate. Qed.
Print Assumptions C56_overlap_refuted.
(* a failing close is ignored: success, and nothing can be decrypted *)
Theorem C56_close_refuted :
  let x := file_encrypt toy close_fails (Some file_key) (Some path_a) (Some path_d) (start (demo_fs [x41; x42] []) 7) in
  let y := file_decrypt toy good_os (Some file_key) (Some path_d) (Some path_e) true (start (w_fs (world_of x)) 0) in
  fst x = Val true /\ fst y = Val false.
Proof. split; [vm_compute; reflexivity|vm_compute; reflexivity]. Qed.
Print Assumptions C56_close_refuted.
(* encrypting a file in place *)
Example C56_case : let x := file_encrypt toy good_os (Some file_key) (Some path_d) (Some path_d) (start (demo_fs [x41] [x42; x43]) 7) in
  let y := file_decrypt toy good_os (Some file_key) (Some path_d) (Some path_d) true (start (w_fs (world_of x)) 0) in
  is_true x && is_true y && negb (file_at (w_fs (world_of x)) path_d [x42; x43]) && file_at (w_fs (world_of y)) path_d [x42; x43] = true.
Proof. vm_compute. reflexivity. Qed.

(* C63 *)
(* the digest of a file is the digest of its contents, and NULL exactly when a read failed; nothing is changed *)
Theorem C63_file_digest : forall P o d src w r w', sha2_file P o src d w = (r, w') ->
  w_fs w' = w_fs w /\
  (r = Val (Some (p_sha P d (fs_data (w_fs w) src))) /\ (forall i, (w_reads w <= i < w_reads w')%nat -> os_read o i = None) \/
   r = Val None /\ exists i, (w_reads w <= i < w_reads w')%nat /\ os_read o i <> None).
Proof. exact sha_file. Qed.
Print Assumptions C63_file_digest.
Example C63_case : fst (sha2_file toy good_os 0 SHA256 (start (demo_fs long_file []) 0)) = Val (Some (p_sha toy SHA256 long_file)) /\
  fst (sha2_file toy read_fails 0 SHA256 (start (demo_fs long_file []) 0)) = Val None.
Proof. split; [vm_compute; reflexivity|vm_compute; reflexivity]. Qed.
