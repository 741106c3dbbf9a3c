(* Concrete arguments for the theorems of Props/PropsHeapEngine.v, and what goes wrong with some. *)
From Verif.Base Require Import Bytes Monad.
From Verif.Model Require Import Buffer Cipher Ecdsa Kdf Prims Engine Heap HeapObjects HeapEngine.
From Verif.Spec Require Import HeapSpec HeapObjectSpec CopySpec HeapEngineSpec.
From Verif.Proofs Require Import ToyPrims BytesFacts HeapFacts HeapObjectFacts HeapExamples HeapParseExamples HeapEngineFacts HeapKdfFacts.
Local Open Scope N_scope.

(* when the conditions of the partial theorems hold, nothing is left behind *)
Lemma encrypt_fits k iv : (forall x v, k = Some x -> iv = Some v -> blen (b_bytes v) <= iv_len (hck_cipher x)) ->
  ~ (match k with Some x => iv_too_long (hck_cipher x) iv | None => never_leaks_op end) never.
Proof.
  destruct k as [x|]; [|intros _ F; exact F]. intros C (v & -> & L). specialize (C x v eq_refl eq_refl).
  exact (proj1 (N.le_ngt _ _) C L).
Qed.
Lemma sign_fits P key : (forall k q, key = Some k -> hkey_pri k = Some q -> p_d2i P (b_bytes q) <> None) -> ~ sign_leak P key never.
Proof. intros C [F|(k & q & E1 & E2 & F)]; [exact (never_fails F)|exact (C k q E1 E2 F)]. Qed.
Lemma kdf_fits a p : (forall x, p = Some x -> ~ empty_bcrypt a (b_bytes x)) ->
  ~ (match p with Some x => kdf_leak a (b_bytes x) | None => never_leaks_op end) never.
Proof. destruct p as [x|]; [|intros _ F; exact F]. intros C [F|F]; [exact (never_fails F)|exact (C x eq_refl F)]. Qed.
Lemma kdf_meta_fits m p : (forall x y, m = Some x -> p = Some y -> ~ empty_bcrypt (hkm_algo x) (b_bytes y)) ->
  ~ (match m, p with Some x, Some y => kdf_leak (hkm_algo x) (b_bytes y) | _, _ => never_leaks_op end) never.
Proof.
  destruct m as [x|]; [|intros _ F; exact F]. destruct p as [y|]; [|intros _ F; exact F].
  intros C [F|F]; [exact (never_fails F)|exact (C x y eq_refl eq_refl F)].
Qed.
Lemma kdf_decipher_fits P i p :
  (forall x y, i = Some x -> p = Some y -> ~ not_a_ciphertext P (b_bytes x) (b_bytes y) /\
     forall m, kdf_meta_create_with_buffer (Some (b_bytes x)) = Val m -> ~ empty_bcrypt (km_algo m) (b_bytes y)) ->
  ~ (match i, p with Some x, Some y => kdf_decipher_leak P (b_bytes x) (b_bytes y) | _, _ => never_leaks_op end) never.
Proof.
  destruct i as [x|]; [|intros _ F; exact F]. destruct p as [y|]; [|intros _ F; exact F].
  intros C [F|[F|(m & E & F)]]; [exact (never_fails F)|exact (proj1 (C x y eq_refl eq_refl) F)|exact (proj2 (C x y eq_refl eq_refl) m E F)].
Qed.

(* the operation runs on arguments that are in memory, and gives an object / this answer *)
Definition performed {T} (args : list (list cell)) (op : H (option T)) : Prop :=
  exists h t h', heap_ok h /\ all_in_memory h args /\ op never h = Some (Some t, h').
Definition answered (b : bool) (args : list (list cell)) (op : H bool) : Prop :=
  exists h h', heap_ok h /\ all_in_memory h args /\ op never h = Some (b, h').
Definition apart (args : list (list cell)) : bool := distinct (map fst (concat args)).
Lemma nodup_parts {A} (l r : list A) : NoDup (l ++ r) -> NoDup l /\ NoDup r.
Proof.
  induction l as [|y m J]; intros D; [split; [constructor|exact D]|]. inversion D as [|? ? N D']; subst. destruct (J D') as (D1 & D2).
  split; [|exact D2]. constructor; [|exact D1]. intros I. apply N. apply in_or_app. left. exact I.
Qed.
Lemma apart_ok args : apart args = true -> all_in_memory (heap_of (concat args)) args.
Proof.
  intros D. pose proof (heap_of_has _ D) as (N & M). unfold all_in_memory. apply Forall_forall. intros l L. split.
  - apply distinct_ok in D. clear -D L. induction args as [|x r IH]; [destruct L|]. cbn in D. rewrite map_app in D.
    destruct (nodup_parts _ _ D) as (D1 & D2). destruct L as [->|L]; [exact D1|exact (IH D2 L)].
  - intros b c I. apply M. apply in_concat. exists l. split; [exact L|exact I].
Qed.
Lemma performed_by {T} args (op : H (option T)) : apart args = true ->
  match op never (heap_of (concat args)) with Some (Some _, _) => true | _ => false end = true -> performed args op.
Proof.
  intros D E. destruct (op never (heap_of (concat args))) as [[[t|] h']|] eqn:W; try discriminate E.
  exists (heap_of (concat args)), t, h'. split; [apply heap_of_ok|]. split; [exact (apart_ok _ D)|exact W].
Qed.
Lemma answered_by b args (op : H bool) : apart args = true ->
  match op never (heap_of (concat args)) with Some (x, _) => Bool.eqb x b | _ => false end = true -> answered b args op.
Proof.
  intros D E. destruct (op never (heap_of (concat args))) as [[x h']|] eqn:W; try discriminate E. apply Bool.eqb_prop in E. subst x.
  exists (heap_of (concat args)), h'. split; [apply heap_of_ok|]. split; [exact (apart_ok _ D)|exact W].
Qed.
Lemma op_crashes_by {A} args fails (op : H A) : apart args = true ->
  match op fails (heap_of (concat args)) with None => true | _ => false end = true -> op_crashes args op.
Proof.
  intros D E. exists fails, (heap_of (concat args)). split; [apply heap_of_ok|]. split; [exact (apart_ok _ D)|].
  destruct (op fails (heap_of (concat args))); [discriminate E|reflexivity].
Qed.
(* [x] is not a block of [h], and holds [kept] in [h'] *)
Definition keeps (h h' : heap) (kept : bytes) (x : block) : bool :=
  match mem h x, mem h' x with None, Some c => beqb c kept | _, _ => false end.
Lemma keeps_ok h h' kept : existsb (keeps h h' kept) (seq 0 (next h')) = true -> exists x, mem h x = None /\ mem h' x = Some kept.
Proof.
  intros E. apply existsb_exists in E. destruct E as (x & _ & E). exists x. unfold keeps in E.
  destruct (mem h x); [discriminate E|]. destruct (mem h' x) as [c|]; [|discriminate E]. apply beqb_spec in E. subst c. split; reflexivity.
Qed.
Lemma op_leaves_none {T} args fails kept (op : H (option T)) : apart args = true ->
  match op fails (heap_of (concat args)) with
  | Some (None, h') => existsb (keeps (heap_of (concat args)) h' kept) (seq 0 (next h'))
  | _ => false
  end = true -> op_leaves args fails None kept op.
Proof.
  intros D E. destruct (op fails (heap_of (concat args))) as [[[t|] h']|] eqn:W; try discriminate E.
  exists (heap_of (concat args)), h'. split; [apply heap_of_ok|]. split; [exact (apart_ok _ D)|]. split; [exact W|exact (keeps_ok _ _ _ E)].
Qed.
Lemma op_leaves_no args fails kept (op : H bool) : apart args = true ->
  match op fails (heap_of (concat args)) with
  | Some (false, h') => existsb (keeps (heap_of (concat args)) h' kept) (seq 0 (next h'))
  | _ => false
  end = true -> op_leaves args fails false kept op.
Proof.
  intros D E. destruct (op fails (heap_of (concat args))) as [[[|] h']|] eqn:W; try discriminate E.
  exists (heap_of (concat args)), h'. split; [apply heap_of_ok|]. split; [exact (apart_ok _ D)|]. split; [exact W|exact (keeps_ok _ _ _ E)].
Qed.
Definition begins (s : bytes) (c : cell) : bool := beqb (firstn (length s) (snd c)) s.
Lemma op_exposes_by {A} args fails secret (op : H A) : apart args = true ->
  match op fails (heap_of (concat args)) with Some (_, h') => existsb (begins secret) (freed h') | _ => false end = true ->
  op_exposes args fails secret op.
Proof.
  intros D E. destruct (op fails (heap_of (concat args))) as [[a h']|] eqn:W; try discriminate E.
  apply existsb_exists in E. destruct E as ([x c] & I & E). unfold begins in E. cbn [snd] in E. apply beqb_spec in E.
  exists (heap_of (concat args)), a, h', x, (skipn (length secret) c). split; [apply heap_of_ok|]. split; [exact (apart_ok _ D)|]. split; [exact W|].
  split; [|intros []]. rewrite <- E at 1. rewrite firstn_skipn. exact I.
Qed.
Ltac by_running := first [apply performed_by|apply answered_by]; vm_compute; reflexivity.

(* the arguments *)
Local Open Scope nat_scope.
Definition text0 : hbuf := {| b_addr := 1; b_data := 2; b_bytes := [x68; x65; x6c; x6c; x6f] |}.
Definition aad0 : hbuf := {| b_addr := 3; b_data := 4; b_bytes := [x70; x61; x73; x73; x77; x6f; x72; x64] |}.
Definition key0 : hck := {| hck_addr := 5; hck_cipher := AES256_GCM; hck_data := {| b_addr := 6; b_data := 7; b_bytes := repeat x2a 32 |} |}.
Definition iv0 : hbuf := {| b_addr := 8; b_data := 9; b_bytes := repeat x07 12 |}.
Definition long0 : hbuf := {| b_addr := 8; b_data := 9; b_bytes := repeat x07 13 |}.
Definition empty0 : hbuf := {| b_addr := 8; b_data := 9; b_bytes := [] |}.
Definition pair_of (a : block) (seed : bytes) : hkey :=
  {| hkey_addr := a; hkey_curve := P521; hkey_pub := {| b_addr := S a; b_data := S (S a); b_bytes := x00 :: toy_pub (x30 :: seed) |};
     hkey_pri := Some {| b_addr := S (S (S a)); b_data := S (S (S (S a))); b_bytes := x30 :: seed |} |}.
Definition pair0 : hkey := Eval vm_compute in pair_of 10 (repeat x11 32).
Definition pair1 : hkey := Eval vm_compute in pair_of 15 (repeat x22 32).
(* a private key that cannot be decoded *)
Definition broken0 : hkey := Eval vm_compute in
  {| hkey_addr := 10; hkey_curve := P521; hkey_pub := hkey_pub pair0; hkey_pri := Some {| b_addr := 13; b_data := 14; b_bytes := repeat x11 33 |} |}.
Definition bytes_of (m : res bytes) : bytes := match m with Val b => b | _ => [] end.
Definition sealed0 : hcr := Eval vm_compute in
  match fst (aes256_encrypt toy (Some (b_bytes text0)) (Some (b_bytes aad0)) (Some (ck_value key0)) (Some (b_bytes iv0)) 0) with
  | Val r => {| hcr_addr := 20; hcr_cipher := AES256_GCM; hcr_iv := {| b_addr := 21; b_data := 22; b_bytes := cr_iv r |};
                hcr_text := Some {| b_addr := 23; b_data := 24; b_bytes := match cr_text r with Some t => t | None => [] end |};
                hcr_tag := Some {| b_addr := 25; b_data := 26; b_bytes := match cr_tag r with Some t => t | None => [] end |} |}
  | _ => {| hcr_addr := 20; hcr_cipher := AES256_GCM; hcr_iv := iv0; hcr_text := None; hcr_tag := None |}
  end.
Definition mac0 : hbuf := Eval vm_compute in
  {| b_addr := 27; b_data := 28; b_bytes := bytes_of (lift (hmac_create toy (Some (b_bytes text0)) (Some (b_bytes aad0)) SHA256)) |}.
Definition sig0 : hsig := Eval vm_compute in
  {| hsig_addr := 29; hsig_curve := P521; hsig_digest := SHA256;
     hsig_data := {| b_addr := 30; b_data := 31; b_bytes := x30 :: toy_digest 64 (tl (b_bytes (hkey_pub pair0)) ++ b_bytes text0) |} |}.
Definition meta0 : hkm :=
  {| hkm_addr := 32; hkm_algo := KDF_HKDF_SHA256; hkm_salt := Some {| b_addr := 33; b_data := 34; b_bytes := repeat x08 32 |};
     hkm_info := Some {| b_addr := 35; b_data := 36; b_bytes := repeat x09 8 |} |}.
Definition hashed0 : bytes := Eval vm_compute in bytes_of (kdf_algo_hash toy (km_value meta0) (b_bytes text0)).
Definition blob0 : hbuf := Eval vm_compute in
  {| b_addr := 37; b_data := 38; b_bytes := bytes_of (fst (kdf_cipher toy KDF_SCRYPT_2_17 AES256_GCM (Some (b_bytes text0)) (Some (b_bytes aad0)) 0)) |}.
(* scrypt with a salt of zeros, and then something that is not a ciphertext *)
Definition stray0 : hbuf := {| b_addr := 37; b_data := 38; b_bytes := x01 :: repeat x00 16 ++ repeat xff 40 |}.
Definition derived0 : bytes := Eval vm_compute in
  match kdf_meta_create_with_buffer (Some (b_bytes stray0)) with Val m => bytes_of (kdf_algo_hash toy m (b_bytes aad0)) | _ => [] end.
(* the same for bcrypt *)
Definition bcrypted0 : hbuf := {| b_addr := 37; b_data := 38; b_bytes := x05 :: repeat x2f 22 ++ repeat xff 40 |}.
Lemma kdf_meta_condition0 : if_set made_kdf_meta (option_map km_value (Some meta0)) /\
  forall x y, Some meta0 = Some x -> Some text0 = Some y -> ~ empty_bcrypt (hkm_algo x) (b_bytes y).
Proof. split; [change (if_set made_kdf_meta (Some (km_value meta0))); closed|]. intros x y E1 E2. injection E1 as <-. intros (F & _). discriminate F. Qed.
Lemma kdf_decipher_condition0 : forall x y, Some blob0 = Some x -> Some aad0 = Some y -> ~ not_a_ciphertext toy (b_bytes x) (b_bytes y) /\
  forall m, kdf_meta_create_with_buffer (Some (b_bytes x)) = Val m -> ~ empty_bcrypt (km_algo m) (b_bytes y).
Proof.
  intros x y E1 E2. apply Some_same in E1. apply Some_same in E2. subst x y. split.
  - intros (m & k & size & _ & _ & S & F). assert (E : kdf_meta_size_with_buffer (Some (b_bytes blob0)) = Val 17%N) by (vm_compute; reflexivity).
    rewrite E in S. injection S as <-.
    assert (G : match cipher_result_from_buffer (Some (skipn (N.to_nat 17) (b_bytes blob0))) with Null => true | _ => false end = false) by (vm_compute; reflexivity).
    rewrite F in G. discriminate G.
  - intros m _ (_ & F). discriminate F.
Qed.
(* what goes wrong *)
Lemma C80_encrypt_refuted_ok : op_leaves [buf_cells text0; ck_cells key0; buf_cells long0] never None (map flip (b_bytes text0)) (h_aes256_encrypt toy (Some text0) None (Some key0) (Some long0) 0).
Proof. apply op_leaves_none; vm_compute; reflexivity. Qed.
Lemma C80_hmac_verify_refuted_ok : op_leaves [buf_cells text0; buf_cells aad0] never false (b_bytes mac0) (h_hmac_verify toy (Some text0) (Some aad0) SHA256 None).
Proof. apply op_leaves_no; vm_compute; reflexivity. Qed.
Lemma C80_sign_refuted_ok : op_leaves [key_cells broken0; buf_cells text0] never None [] (h_ec_sign toy (Some broken0) (Some text0) SHA256 0).
Proof. apply op_leaves_none; vm_compute; reflexivity. Qed.
Lemma C80_kdf_refuted_ok : op_leaves [buf_cells empty0] never None [x00] (h_perform_kdf toy KDF_BCRYPT_15 (Some empty0) 0).
Proof. apply op_leaves_none; vm_compute; reflexivity. Qed.
Lemma C80_kdf_decipher_refuted_ok : op_leaves [buf_cells stray0; buf_cells aad0] never None derived0 (h_kdf_decipher toy (Some stray0) (Some aad0) []).
Proof. apply op_leaves_none; vm_compute; reflexivity. Qed.
Lemma C81_random_refuted_ok : op_crashes [] (h_crypto_random toy 32%N 0).
Proof. refine (op_crashes_by _ (fun _ ty => match ty with T_buffer => true | _ => false end) _ _ _); vm_compute; reflexivity. Qed.
Lemma C81_random_key_refuted_ok : op_crashes [] (h_cipher_key_random toy AES256_GCM 0).
Proof. refine (op_crashes_by _ (fun _ ty => match ty with T_buffer => true | _ => false end) _ _ _); vm_compute; reflexivity. Qed.
Lemma C81_encrypt_refuted_ok : op_crashes [buf_cells text0; ck_cells key0] (h_aes256_encrypt toy (Some text0) None (Some key0) None 0).
Proof. refine (op_crashes_by _ (fun _ ty => match ty with T_buffer => true | _ => false end) _ _ _); vm_compute; reflexivity. Qed.
Lemma C81_hash_refuted_ok : op_crashes [buf_cells text0] (h_sha2 toy (Some text0) None SHA256).
Proof. refine (op_crashes_by _ (fun _ ty => match ty with T_buffer => true | _ => false end) _ _ _); vm_compute; reflexivity. Qed.
Lemma C81_generate_key_refuted_ok : op_crashes [] (h_ec_rand_key toy P521 0).
Proof. refine (op_crashes_by _ (fun _ ty => match ty with T_openssl => true | _ => false end) _ _ _); vm_compute; reflexivity. Qed.
Lemma C81_sign_refuted_ok : op_crashes [key_cells pair0; buf_cells text0] (h_ec_sign toy (Some pair0) (Some text0) SHA256 0).
Proof. refine (op_crashes_by _ (fun _ ty => match ty with T_openssl => true | _ => false end) _ _ _); vm_compute; reflexivity. Qed.
Lemma C81_verify_refuted_ok : op_crashes [sig_cells sig0; key_cells pair0; buf_cells text0] (h_ec_verify toy (Some sig0) (Some pair0) (Some text0)).
Proof. refine (op_crashes_by _ (fun _ ty => match ty with T_openssl => true | _ => false end) _ _ _); vm_compute; reflexivity. Qed.
Lemma C81_shared_secret_refuted_ok : exists fails, op_leaves [key_cells pair0; key_cells pair1] fails None [] (h_gen_shared_secret toy (Some pair0) (Some pair1)).
Proof. exists (only 21). apply op_leaves_none; vm_compute; reflexivity. Qed.
Lemma C81_kdf_meta_refuted_ok : exists fails, op_leaves [km_cells meta0; buf_cells text0] fails None hashed0 (h_perform_kdf_meta toy (Some meta0) (Some text0)).
Proof. exists (fun _ ty => match ty with T_kdf_result => true | _ => false end). apply op_leaves_none; vm_compute; reflexivity. Qed.
Lemma C81_kdf_cipher_refuted_ok : op_crashes [buf_cells text0; buf_cells aad0] (h_kdf_cipher toy KDF_SCRYPT_2_17 AES256_GCM (Some text0) (Some aad0) 0).
Proof. refine (op_crashes_by _ (fun _ ty => match ty with T_buffer => true | _ => false end) _ _ _); vm_compute; reflexivity. Qed.
Lemma C81_kdf_decipher_refuted_ok : op_crashes [buf_cells blob0; buf_cells aad0] (h_kdf_decipher toy (Some blob0) (Some aad0) []).
Proof. refine (op_crashes_by _ (fun _ ty => match ty with T_cipher_key => true | _ => false end) _ _ _); vm_compute; reflexivity. Qed.
Lemma C82_kdf_refuted_ok : op_exposes [buf_cells text0] never (b_bytes text0) (h_perform_kdf toy KDF_BCRYPT_15 (Some text0) 0).
Proof. apply op_exposes_by; vm_compute; reflexivity. Qed.
Lemma C82_kdf_decipher_refuted_ok : op_exposes [buf_cells bcrypted0; buf_cells text0] never (b_bytes text0) (h_kdf_decipher toy (Some bcrypted0) (Some text0) []).
Proof. apply op_exposes_by; vm_compute; reflexivity. Qed.
Lemma C82_kdf_meta_refuted_ok : exists fails, op_exposes [km_cells meta0; buf_cells text0] fails hashed0 (h_perform_kdf_meta toy (Some meta0) (Some text0)).
Proof. exists (only 42). apply op_exposes_by; vm_compute; reflexivity. Qed.
