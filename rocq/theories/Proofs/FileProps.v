(* The file properties, from the facts about the single steps. *)
From Coq Require Import ZifyBool ZifyNat ZifyN.
From Verif.Base Require Import Bytes Monad.
From Verif.Model Require Import Buffer Cipher Ecdsa Prims Engine Files.
From Verif.Spec Require Import BufferSpec CodecSpec FileSpec.
From Verif.Proofs Require Import BytesFacts BufferFacts CodecFacts EngineFacts FileFacts.
Ltac Zify.zify_post_hook ::= Z.div_mod_to_equations.
Local Open Scope N_scope.

Lemma not_temp_neq f p d i dst : fs_ok f -> not_temp f p d -> fs_names f p = Some i ->
  (fs_names f (temp_path d) = Some dst \/ fs_names f (temp_path d) = None /\ dst = fs_next f) -> i <> dst.
Proof.
  intros Hf [_ N1] Hp [H|[_ ->]] ->.
  - exact (N1 _ Hp H).
  - apply Hf in Hp. lia.
Qed.
Lemma agrees_content f p d dst g : fs_ok f -> not_temp f p d ->
  (fs_names f (temp_path d) = Some dst \/ fs_names f (temp_path d) = None /\ dst = fs_next f) ->
  agrees (temp_path d) dst f g -> content g p = content f p.
Proof.
  intros Hf N1 Hd [A B]. unfold content. rewrite A by apply N1. destruct (fs_names f p) as [i|] eqn:Ei; [|reflexivity]. cbn [option_map].
  rewrite B; [reflexivity|]. eapply not_temp_neq; eassumption.
Qed.
Lemma moved_content f p d dst c g : fs_ok f -> not_temp f p d -> p <> d ->
  (fs_names f (temp_path d) = Some dst \/ fs_names f (temp_path d) = None /\ dst = fs_next f) ->
  moved (temp_path d) d dst c f g -> content g p = content f p.
Proof.
  intros Hf N1 Hpd Hd (A & B & _). unfold content. rewrite A by first [apply N1|exact Hpd]. destruct (fs_names f p) as [i|] eqn:Ei; [|reflexivity]. cbn [option_map].
  rewrite B; [reflexivity|]. eapply not_temp_neq; eassumption.
Qed.
Lemma moved_dest t d dst c f g : moved t d dst c f g -> content g d = Some c.
Proof. intros (_ & _ & A & B). unfold content. rewrite A. cbn [option_map]. rewrite B. reflexivity. Qed.

(* the body did its work on this source, and c is what closing its output left *)
Definition finished (o : os) (s d : bytes) (body : nat -> nat -> IO bool) (f : fs) (n : nat) (c : bytes) : Prop :=
  exists src dst w1 w2, fs_names f s = Some src /\ (not_temp f s d -> src <> dst /\ fs_data (w_fs w1) src = fs_data f src) /\
    fs_data (w_fs w1) dst = [] /\ w_rand w1 = n /\ body src dst w1 = (Val true, w2) /\ c = closed o w2 dst.

Section Operation.
Context (o : os) (s d : bytes) (body : nat -> nat -> IO bool) (f : fs) (n : nat) (r : res bool) (w : world).
Context (E : run_operation o s d body (start f n) = (r, w)).
Context (HT : forall src dst w r w', body src dst w = (r, w') -> tame dst w w') (Hf : fs_ok f).

Lemma start_seen g : visible (start f n) g -> g = f.
Proof. intros [->|(a & b & c & [I|[]] & L & Eg)]; [reflexivity|]. injection I as <- <-. exact Eg. Qed.

Lemma op_answers : not_temp f s d ->
  (forall src dst w1 rb w2, src <> dst -> fs_data (w_fs w1) dst = [] -> body src dst w1 = (rb, w2) -> exists b, rb = Val b) -> exists b, r = Val b.
Proof.
  intros Ns HB. destruct (run_spec o s d body f n r w E HT) as [(-> & _)|(src & dst & w1 & w2 & rb & Hs & Hd & _ & D1 & _ & Eb & H)]; [eauto|].
  destruct (HB src dst w1 rb w2 (not_temp_neq f s d src dst Hf Ns Hs Hd) D1 Eb) as (b & ->). destruct b; destruct H as [-> _]; eauto.
Qed.
Lemma op_failure : r = Val false -> not_temp f d d -> content (w_fs w) d = content f d.
Proof.
  intros Hr Nd. destruct (run_spec o s d body f n r w E HT) as [(_ & -> & _)|(src & dst & w1 & w2 & rb & Hs & Hd & _ & D1 & _ & Eb & H)]; [reflexivity|].
  destruct rb as [[|]| |].
  - destruct H as (H1 & H2 & _). rewrite Hr in H1. destruct (os_rename o); [|discriminate]. eapply agrees_content; [exact Hf|exact Nd|exact Hd|exact (proj1 H2)].
  - destruct H as (_ & H2 & _). eapply agrees_content; [exact Hf|exact Nd|exact Hd|exact H2].
  - destruct H as (H1 & _). congruence.
  - destruct H as (H1 & _). congruence.
Qed.
Lemma op_no_temp : (exists b, r = Val b) -> os_remove o = false -> fs_names (w_fs w) (temp_of d) = None \/ w_fs w = f.
Proof.
  intros Hb Hr. change (temp_of d) with (temp_path d). destruct (run_spec o s d body f n r w E HT) as [(_ & -> & _)|(src & dst & w1 & w2 & rb & Hs & Hd & _ & D1 & _ & Eb & H)]; [right; reflexivity|]. left.
  destruct rb as [[|]| |].
  - destruct H as (_ & _ & H). exact (H Hr).
  - destruct H as (_ & _ & _ & H). exact (H Hr).
  - destruct H as (H1 & _), Hb. congruence.
  - destruct H as (H1 & _), Hb. congruence.
Qed.
Lemma op_frame p g : visible w g -> p <> d -> not_temp f p d -> content g p = content f p.
Proof.
  intros V Hpd Np. destruct (run_spec o s d body f n r w E HT) as [(_ & -> & _)|(src & dst & w1 & w2 & rb & Hs & Hd & _ & D1 & _ & Eb & H)].
  { rewrite (start_seen g V). reflexivity. }
  assert (A : agrees (temp_path d) dst f g -> content g p = content f p) by (intros A; eapply agrees_content; [exact Hf|exact Np|exact Hd|exact A]).
  assert (M : forall c, moved (temp_path d) d dst c f g -> content g p = content f p) by (intros c M; eapply moved_content; [exact Hf|exact Np|exact Hpd|exact Hd|exact M]).
  destruct rb as [[|]| |].
  - destruct H as (_ & H & _). destruct (os_rename o); destruct H as [H1 H2]; destruct V as [->|V]; eauto. destruct (H2 g V); eauto.
  - destruct H as (_ & H1 & H2 & _). destruct V as [->|V]; eauto.
  - destruct H as (_ & H1 & H2). destruct V as [->|V]; eauto.
  - destruct H as (_ & H1 & H2). destruct V as [->|V]; eauto.
Qed.
Lemma op_crash g : visible w g -> not_temp f d d -> content g d = content f d \/ exists c, finished o s d body f n c /\ content g d = Some c.
Proof.
  intros V Nd. destruct (run_spec o s d body f n r w E HT) as [(_ & -> & _)|(src & dst & w1 & w2 & rb & Hs & Hd & A1 & D1 & R1 & Eb & H)].
  { rewrite (start_seen g V). left. reflexivity. }
  assert (A : agrees (temp_path d) dst f g -> content g d = content f d) by (intros A; eapply agrees_content; [exact Hf|exact Nd|exact Hd|exact A]).
  destruct rb as [[|]| |].
  - assert (M : moved (temp_path d) d dst (closed o w2 dst) f g -> exists c, finished o s d body f n c /\ content g d = Some c).
    { intros M. exists (closed o w2 dst). split; [|eapply moved_dest; exact M]. exists src, dst, w1, w2. split; [exact Hs|]. split; [|auto].
      intros Ns. pose proof (not_temp_neq f s d src dst Hf Ns Hs Hd) as Hne. split; [exact Hne|]. apply A1. exact Hne. }
    destruct H as (_ & H & _). destruct (os_rename o); destruct H as [H1 H2]; destruct V as [->|V]; eauto. destruct (H2 g V); eauto.
  - destruct H as (_ & H1 & H2 & _). destruct V as [->|V]; eauto.
  - destruct H as (_ & H1 & H2). destruct V as [->|V]; eauto.
  - destruct H as (_ & H1 & H2). destruct V as [->|V]; eauto.
Qed.
Lemma op_success : r = Val true -> exists c, finished o s d body f n c /\ content (w_fs w) d = Some c.
Proof.
  intros Hr. destruct (run_spec o s d body f n r w E HT) as [(-> & _ & _)|(src & dst & w1 & w2 & rb & Hs & Hd & A1 & D1 & R1 & Eb & H)]; [discriminate|].
  destruct rb as [[|]| |]; [|destruct H as (H & _); congruence|destruct H as (H & _); congruence|destruct H as (H & _); congruence].
  destruct H as (H1 & H & _). rewrite Hr in H1. destruct (os_rename o); [discriminate|]. destruct H as [M _].
  exists (closed o w2 dst). split; [|eapply moved_dest; exact M]. exists src, dst, w1, w2. split; [exact Hs|]. split; [|auto].
  intros Ns. pose proof (not_temp_neq f s d src dst Hf Ns Hs Hd) as Hne. split; [exact Hne|]. apply A1. exact Hne.
Qed.
Lemma op_succeeds : no_failures o -> not_temp f s d -> fs_names f s <> None ->
  (forall src dst w1 rb w2, src <> dst -> fs_names f s = Some src -> fs_data (w_fs w1) src = fs_data f src -> w_rand w1 = n ->
     fs_data (w_fs w1) dst = [] -> body src dst w1 = (rb, w2) -> rb = Val true) -> r = Val true.
Proof.
  intros (O1 & O2 & _ & _ & _ & O6 & _) Ns Hs0 HB.
  destruct (run_spec o s d body f n r w E HT) as [(_ & _ & [H|[H|H]])|(src & dst & w1 & w2 & rb & Hs & Hd & A1 & D1 & R1 & Eb & H)]; [congruence|congruence|congruence|].
  pose proof (not_temp_neq f s d src dst Hf Ns Hs Hd) as Hne.
  rewrite (HB src dst w1 rb w2 Hne Hs (proj2 A1 _ Hne) R1 D1 Eb) in H. rewrite O6 in H. apply H.
Qed.
End Operation.

(* ---- encryption ---- *)
Lemma closed_fine o w i : closes_fine o -> closed o w i = fs_data (w_fs w) i.
Proof. intros C. unfold closed. rewrite C. reflexivity. Qed.
Section Encrypt.
Context (P : prims) (HA : aead_ok P) (HC : ctr_ok P) (HS : stream_ok P).
Lemma encrypt_finished o s d k f n c : closes_fine o -> not_temp f s d ->
  finished o s d (fun src dst => encrypt_file P o src k dst) f n c ->
  exists source iv m, content f s = Some source /\ p_rand P n (iv_len (ck_cipher k)) = Some iv /\ blen iv = iv_len (ck_cipher k) /\ good_key k /\
    fits k (firstn m source) /\ c = encrypted_file P k iv (firstn m source) /\ (reads_fine o -> firstn m source = source).
Proof.
  intros C Ns (src & dst & w1 & w2 & Hs & Hne & D1 & R1 & Eb & ->). destruct (Hne Ns) as [Hn Ds].
  destruct (encrypt_spec P o HA HC HS src dst Hn k w1 _ w2 Eb D1) as (_ & _ & H & _). destruct (H eq_refl) as (G & iv & m & Hr & L & Hfit & Hc & HR).
  rewrite Ds in *. exists (fs_data f src), iv, m. unfold content. rewrite Hs, <- R1, (closed_fine _ _ _ C). auto 9.
Qed.
Lemma decrypt_finished o s d k oa f n c : closes_fine o -> not_temp f s d ->
  finished o s d (fun src dst => decrypt_file P o src k dst oa) f n c ->
  exists file m, content f s = Some file /\ good_key k /\ opened_file P k oa (firstn m file) c /\ (reads_fine o -> firstn m file = file).
Proof.
  intros C Ns (src & dst & w1 & w2 & Hs & Hne & D1 & R1 & Eb & ->). destruct (Hne Ns) as [Hn Ds].
  destruct (decrypt_spec P o HA HC HS src dst Hn k oa w1 _ w2 Eb D1) as (_ & _ & H & _). destruct (H eq_refl) as (G & m & Ho & HR).
  rewrite Ds in *. exists (fs_data f src), m. unfold content. rewrite Hs, (closed_fine _ _ _ C). auto.
Qed.
Lemma open_encrypted k iv plain oa : blen iv = iv_len (ck_cipher k) -> (oa = true -> ck_cipher k = AES256_GCM) ->
  opened_file P k oa (encrypted_file P k iv plain) plain.
Proof.
  intros L Oa. unfold blen in L. unfold opened_file, encrypted_file. destruct (ck_cipher k); cbn [iv_len] in L.
  - left. destruct (HA (ck_data k) iv [] plain) as (_ & Lt & D). exists iv, (snd (p_gcm_enc P (ck_data k) iv [] plain)), (fst (p_gcm_enc P (ck_data k) iv [] plain)).
    split; [reflexivity|]. split; [lia|]. split; [exact Lt|exact D].
  - right. split; [destruct oa; [discriminate (Oa eq_refl)|reflexivity]|]. exists iv, (p_ctr P (ck_data k) iv plain). split; [reflexivity|]. split; [lia|].
    destruct (HC (ck_data k) iv plain) as [_ D]. rewrite D. reflexivity.
Qed.
(* a file holds one plaintext *)
Lemma opened_once k oa file a b : opened_file P k oa file a -> opened_file P k oa file b -> a = b.
Proof.
  intros Ha Hb. destruct (opened_has_head _ _ _ _ _ Ha) as (c & iv & tag & ct & -> & L1 & L2). apply opened_head in Ha, Hb; try assumption.
  destruct Ha as [_ Ha], Hb as [_ Hb]. destruct c; congruence.
Qed.

(* an encrypted file can be decrypted *)
Lemma decrypt_works o k oa s d f n file plain : no_failures o -> fs_ok f -> not_temp f s d -> good_key k ->
  content f s = Some file -> opened_file P k oa file plain -> (nth_error file 0 = Some x00 -> blen plain <= 2 ^ 36 - 32) ->
  exists w, file_decrypt P o (Some k) (Some s) (Some d) oa (start f n) = (Val true, w) /\ content (w_fs w) d = Some plain.
Proof.
  intros NF Hf Ns G Hc Ho Hl. destruct (file_decrypt P o (Some k) (Some s) (Some d) oa (start f n)) as [r w] eqn:E. cbn [file_decrypt] in E.
  assert (HT : forall src dst w r w', decrypt_file P o src k dst oa w = (r, w') -> tame dst w w') by (intros; eapply decrypt_tame; eassumption).
  assert (Hs : exists src, fs_names f s = Some src /\ fs_data f src = file).
  { unfold content in Hc. destruct (fs_names f s) as [src|]; [|discriminate]. exists src. split; [reflexivity|]. apply Some_inj in Hc. exact Hc. }
  destruct Hs as (src0 & Hs & Hd0).
  assert (Hr : r = Val true).
  { apply (op_succeeds o s d _ f n r w E HT Hf NF Ns); [congruence|]. intros src dst w1 rb w2 Hne Hs1 D1 _ E1 Eb.
    assert (src = src0) by congruence. subst src. rewrite Hd0 in D1.
    destruct (decrypt_spec P o HA HC HS src0 dst Hne k oa w1 rb w2 Eb E1) as (_ & _ & _ & H). rewrite D1 in H. apply (H plain NF G Ho Hl). }
  exists w. split; [rewrite Hr; reflexivity|].
  destruct (op_success o s d _ f n r w E HT Hf Hr) as (c & F & Ec). assert (CF : closes_fine o) by apply NF.
  destruct (decrypt_finished o s d k oa f n c CF Ns F) as (file' & m & Hc' & _ & Ho' & HR). assert (R : reads_fine o) by apply NF.
  rewrite (HR R) in Ho'. assert (file' = file) by congruence. subst file'. rewrite Ec. f_equal. eapply opened_once; eassumption.
Qed.
Lemma encrypt_works o k s d f n plain iv : no_failures o -> rand_ok P -> fs_ok f -> not_temp f s d -> good_key k ->
  content f s = Some plain -> fits k plain -> p_rand P n (iv_len (ck_cipher k)) = Some iv ->
  exists w, file_encrypt P o (Some k) (Some s) (Some d) (start f n) = (Val true, w) /\ content (w_fs w) d = Some (encrypted_file P k iv plain).
Proof.
  intros NF HRd Hf Ns G Hc Hfit Hiv. destruct (file_encrypt P o (Some k) (Some s) (Some d) (start f n)) as [r w] eqn:E. cbn [file_encrypt] in E.
  assert (HT : forall src dst w r w', encrypt_file P o src k dst w = (r, w') -> tame dst w w') by (intros; eapply encrypt_tame; eassumption).
  assert (Hs : exists src, fs_names f s = Some src /\ fs_data f src = plain).
  { unfold content in Hc. destruct (fs_names f s) as [src|]; [|discriminate]. exists src. split; [reflexivity|]. apply Some_inj in Hc. exact Hc. }
  destruct Hs as (src0 & Hs & Hd0).
  assert (Hr : r = Val true).
  { apply (op_succeeds o s d _ f n r w E HT Hf NF Ns); [congruence|]. intros src dst w1 rb w2 Hne Hs1 D1 R1 E1 Eb.
    assert (src = src0) by congruence. subst src. rewrite Hd0 in D1.
    destruct (encrypt_spec P o HA HC HS src0 dst Hne k w1 rb w2 Eb E1) as (_ & _ & _ & H). rewrite D1, R1 in H. apply (H NF HRd G); [congruence|exact Hfit]. }
  exists w. split; [rewrite Hr; reflexivity|].
  destruct (op_success o s d _ f n r w E HT Hf Hr) as (c & F & Ec). assert (CF : closes_fine o) by apply NF.
  destruct (encrypt_finished o s d k f n c CF Ns F) as (source & iv' & m & Hc' & Hr' & _ & _ & _ & Hc2 & HR). assert (R : reads_fine o) by apply NF.
  rewrite (HR R) in Hc2. rewrite Ec, Hc2. congruence.
Qed.
End Encrypt.

(* ---- as stated in Props ---- *)
Lemma encrypt_success P o k s d f n w : aead_ok P -> ctr_ok P -> stream_ok P -> fs_ok f -> not_temp f s d -> reads_fine o -> closes_fine o ->
  file_encrypt P o (Some k) (Some s) (Some d) (start f n) = (Val true, w) ->
  good_key k /\ exists plain iv, content f s = Some plain /\ fits k plain /\ p_rand P n (iv_len (ck_cipher k)) = Some iv /\ blen iv = iv_len (ck_cipher k) /\
    content (w_fs w) d = Some (encrypted_file P k iv plain).
Proof.
  intros HA HC HS Hf Ns R C E. cbn [file_encrypt] in E.
  assert (HT : forall src dst w r w', encrypt_file P o src k dst w = (r, w') -> tame dst w w') by (intros; eapply encrypt_tame; eassumption).
  destruct (op_success o s d _ f n _ w E HT Hf eq_refl) as (c & F & Ec).
  destruct (encrypt_finished P HA HC HS o s d k f n c C Ns F) as (source & iv & m & Hc & Hr & L & G & Hfit & Hc2 & HR).
  rewrite (HR R) in *. split; [exact G|]. exists source, iv. rewrite Ec, Hc2. auto.
Qed.
Lemma encrypted_first P k iv plain : nth_error (encrypted_file P k iv plain) 0 = Some x00 -> ck_cipher k = AES256_GCM.
Proof. unfold encrypted_file. destruct (ck_cipher k); [reflexivity|discriminate]. Qed.
Lemma success_complete P o k s d f n w : aead_ok P -> ctr_ok P -> stream_ok P -> fs_ok f -> not_temp f s d -> reads_fine o -> closes_fine o ->
  file_encrypt P o (Some k) (Some s) (Some d) (start f n) = (Val true, w) ->
  content f s <> None /\ forall o' oa s' d' f' n', no_failures o' -> fs_ok f' -> not_temp f' s' d' -> (oa = true -> ck_cipher k = AES256_GCM) ->
    content f' s' = content (w_fs w) d ->
    exists w', file_decrypt P o' (Some k) (Some s') (Some d') oa (start f' n') = (Val true, w') /\ content (w_fs w') d' = content f s.
Proof.
  intros HA HC HS Hf Ns R C E. destruct (encrypt_success P o k s d f n w HA HC HS Hf Ns R C E) as (G & plain & iv & Hc & Hfit & _ & L & Hd).
  split; [congruence|]. intros o' oa s' d' f' n' NF Hf' Ns' Oa Hcopy. rewrite Hd in Hcopy. rewrite Hc.
  apply (decrypt_works P HA HC HS o' k oa s' d' f' n' (encrypted_file P k iv plain) plain NF Hf' Ns' G Hcopy (open_encrypted P HA HC k iv plain oa L Oa)).
  intros H. apply Hfit. apply (encrypted_first _ _ _ _ H).
Qed.
Lemma encrypts P o k s d f n plain iv : aead_ok P -> ctr_ok P -> stream_ok P -> rand_ok P -> no_failures o -> fs_ok f -> not_temp f s d -> good_key k ->
  content f s = Some plain -> fits k plain -> p_rand P n (iv_len (ck_cipher k)) = Some iv ->
  exists w, file_encrypt P o (Some k) (Some s) (Some d) (start f n) = (Val true, w) /\ content (w_fs w) d = Some (encrypted_file P k iv plain).
Proof. intros HA HC HS HR NF. apply encrypt_works; assumption. Qed.
Lemma encrypt_crash P o k s d f n r w g : aead_ok P -> ctr_ok P -> stream_ok P -> fs_ok f -> not_temp f s d -> not_temp f d d -> reads_fine o -> closes_fine o ->
  file_encrypt P o (Some k) (Some s) (Some d) (start f n) = (r, w) -> visible w g ->
  content g d = content f d \/ exists plain iv, content f s = Some plain /\ blen iv = iv_len (ck_cipher k) /\ content g d = Some (encrypted_file P k iv plain).
Proof.
  intros HA HC HS Hf Ns Nd R C E V. cbn [file_encrypt] in E.
  assert (HT : forall src dst w r w', encrypt_file P o src k dst w = (r, w') -> tame dst w w') by (intros; eapply encrypt_tame; eassumption).
  destruct (op_crash o s d _ f n r w E HT Hf g V Nd) as [H|(c & F & Ec)]; [left; exact H|]. right.
  destruct (encrypt_finished P HA HC HS o s d k f n c C Ns F) as (source & iv & m & Hc & Hr & L & G & Hfit & Hc2 & HR).
  rewrite (HR R) in *. exists source, iv. rewrite Ec, Hc2. auto.
Qed.
Lemma decrypt_crash P o k oa s d f n r w g : aead_ok P -> ctr_ok P -> stream_ok P -> fs_ok f -> not_temp f s d -> not_temp f d d -> closes_fine o ->
  file_decrypt P o (Some k) (Some s) (Some d) oa (start f n) = (r, w) -> visible w g ->
  content g d = content f d \/ exists file m plain, content f s = Some file /\ opened_file P k oa (firstn m file) plain /\
    (reads_fine o -> firstn m file = file) /\ content g d = Some plain.
Proof.
  intros HA HC HS Hf Ns Nd C E V. cbn [file_decrypt] in E.
  assert (HT : forall src dst w r w', decrypt_file P o src k dst oa w = (r, w') -> tame dst w w') by (intros; eapply decrypt_tame; eassumption).
  destruct (op_crash o s d _ f n r w E HT Hf g V Nd) as [H|(c & F & Ec)]; [left; exact H|]. right.
  destruct (decrypt_finished P HA HC HS o s d k oa f n c C Ns F) as (file & m & Hc & G & Ho & HR). exists file, m, c. auto.
Qed.
(* either operation *)
Lemma both_failure P o k s d f n oa w : fs_ok f -> not_temp f d d ->
  (file_encrypt P o (Some k) (Some s) (Some d) (start f n) = (Val false, w) \/ file_decrypt P o (Some k) (Some s) (Some d) oa (start f n) = (Val false, w)) ->
  content (w_fs w) d = content f d /\ (os_remove o = false -> content (w_fs w) (temp_of d) = None \/ w_fs w = f).
Proof.
  intros Hf Nd H.
  assert (J : forall body, (forall src dst w r w', body src dst w = (r, w') -> tame dst w w') -> run_operation o s d body (start f n) = (Val false, w) ->
    content (w_fs w) d = content f d /\ (os_remove o = false -> content (w_fs w) (temp_of d) = None \/ w_fs w = f)).
  { intros body HT E. split; [exact (op_failure o s d body f n _ w E HT Hf eq_refl Nd)|]. intros Hr.
    destruct (op_no_temp o s d body f n _ w E HT (ex_intro _ false eq_refl) Hr) as [N1|N1]; [left; unfold content; rewrite N1; reflexivity|right; exact N1]. }
  destruct H as [E|E]; cbn [file_encrypt file_decrypt] in E.
  - eapply J; [|exact E]. intros ? ? ? ? ? HH; eapply encrypt_tame; exact HH.
  - eapply J; [|exact E]. intros ? ? ? ? ? HH; eapply decrypt_tame; exact HH.
Qed.
Lemma both_no_temp P o k s d f n oa b w : fs_ok f -> os_remove o = false ->
  (file_encrypt P o (Some k) (Some s) (Some d) (start f n) = (Val b, w) \/ file_decrypt P o (Some k) (Some s) (Some d) oa (start f n) = (Val b, w)) ->
  content (w_fs w) (temp_of d) = None \/ w_fs w = f.
Proof.
  intros Hf Hr H.
  assert (J : forall body, (forall src dst w r w', body src dst w = (r, w') -> tame dst w w') -> run_operation o s d body (start f n) = (Val b, w) ->
    content (w_fs w) (temp_of d) = None \/ w_fs w = f).
  { intros body HT E.
    destruct (op_no_temp o s d body f n _ w E HT (ex_intro _ b eq_refl) Hr) as [N1|N1]; [left; unfold content; rewrite N1; reflexivity|right; exact N1]. }
  destruct H as [E|E]; cbn [file_encrypt file_decrypt] in E.
  - eapply J; [|exact E]. intros ? ? ? ? ? HH; eapply encrypt_tame; exact HH.
  - eapply J; [|exact E]. intros ? ? ? ? ? HH; eapply decrypt_tame; exact HH.
Qed.
Lemma both_frame P o k s d f n oa r w p g : fs_ok f -> p <> d -> not_temp f p d ->
  (file_encrypt P o (Some k) (Some s) (Some d) (start f n) = (r, w) \/ file_decrypt P o (Some k) (Some s) (Some d) oa (start f n) = (r, w)) ->
  visible w g -> content g p = content f p.
Proof.
  intros Hf Hp Np H V. destruct H as [E|E]; cbn [file_encrypt file_decrypt] in E.
  - eapply op_frame; [exact E| |exact Hf|exact V|exact Hp|exact Np]. intros ? ? ? ? ? HH; eapply encrypt_tame; exact HH.
  - eapply op_frame; [exact E| |exact Hf|exact V|exact Hp|exact Np]. intros ? ? ? ? ? HH; eapply decrypt_tame; exact HH.
Qed.
Lemma both_answer P o k s d f n oa r w : aead_ok P -> ctr_ok P -> stream_ok P -> fs_ok f -> not_temp f s d ->
  (file_encrypt P o (Some k) (Some s) (Some d) (start f n) = (r, w) \/ file_decrypt P o (Some k) (Some s) (Some d) oa (start f n) = (r, w)) ->
  r = Val true \/ r = Val false.
Proof.
  intros HA HC HS Hf Ns H. assert (J : exists b, r = Val b).
  { destruct H as [E|E]; cbn [file_encrypt file_decrypt] in E.
    - eapply op_answers; [exact E| |exact Hf|exact Ns|].
      + intros ? ? ? ? ? HH; eapply encrypt_tame; exact HH.
      + intros src dst w1 rb w2 Hne D1 Eb. destruct (encrypt_spec P o HA HC HS src dst Hne k w1 rb w2 Eb D1) as (_ & Hb & _). exact Hb.
    - eapply op_answers; [exact E| |exact Hf|exact Ns|].
      + intros ? ? ? ? ? HH; eapply decrypt_tame; exact HH.
      + intros src dst w1 rb w2 Hne D1 Eb. destruct (decrypt_spec P o HA HC HS src dst Hne k oa w1 rb w2 Eb D1) as (_ & Hb & _). exact Hb. }
  destruct J as [[|] ->]; auto.
Qed.
(* the loop gives the same output whatever the size of the pieces *)
Lemma loop_chunks P o chunk c k iv src dst w r w' : aead_ok P -> ctr_ok P -> stream_ok P -> no_failures o -> (0 < chunk)%nat -> src <> dst ->
  evp_fits c (fs_data (w_fs w) src) = true ->
  crypt_loop P o chunk (loop_fuel (w_fs w) src) c k iv [] src 0 dst (length (fs_data (w_fs w) dst)) w = (r, w') ->
  r = Val (Some (fs_data (w_fs w) src)) /\ fs_data (w_fs w') dst = (fs_data (w_fs w) dst ++ evp_stream P c k iv (fs_data (w_fs w) src))%list.
Proof.
  intros HA HC HS (_ & _ & R & Wf & _) Hch Hne Hfit E.
  destruct (loop_spec P o HA HC HS chunk Hch c k iv src dst Hne _ _ _ _ _ _ _ E eq_refl) as (_ & _ & _ & _ & V & G).
  assert (Hfuel : (length (fs_data (w_fs w) src) - 0 < loop_fuel (w_fs w) src)%nat) by (unfold loop_fuel; lia).
  destruct (G R Wf Hfuel Hfit) as (total & ->). destruct (V total eq_refl) as (m & _ & _ & D & HR). specialize (HR R). cbn [app skipn length] in HR, D.
  subst total. auto.
Qed.
Lemma same_as_memory P k plain n r n' : aead_ok P -> ctr_ok P ->
  aes256_encrypt P (Some plain) None (Some k) None n = (Val r, n') ->
  p_rand P n (iv_len (ck_cipher k)) = Some (cr_iv r) /\ encrypted_file P k (cr_iv r) plain = result_wire r.
Proof.
  intros HA HC H. apply encrypt_Val in H. destruct H as (_ & _ & _ & _ & Hc & _ & Hr & H). split; [exact Hr|]. unfold encrypted_file, result_wire. rewrite Hc.
  destruct (ck_cipher k).
  - destruct H as (-> & -> & _). reflexivity.
  - destruct H as (-> & ->). reflexivity.
Qed.

(* ---- digests ---- *)
Lemma sha_loop P o chunk d src fuel : (0 < chunk)%nat -> forall acc roff w r w', sha2_loop P o chunk fuel d acc src roff w = (r, w') ->
  (length (fs_data (w_fs w) src) - roff < fuel)%nat ->
  w_fs w' = w_fs w /\
  (r = Val (Some (p_sha P d (acc ++ skipn roff (fs_data (w_fs w) src)))) /\ (forall i, (w_reads w <= i < w_reads w')%nat -> os_read o i = None) \/
   r = Val None /\ exists i, (w_reads w <= i < w_reads w')%nat /\ os_read o i <> None) /\ (w_reads w < w_reads w')%nat.
Proof.
  intros Hch. induction fuel as [|fuel IH]; intros acc roff w r w' E F; [lia|]. cbn [sha2_loop] in E. cbv zeta in E. rewrite bind_read in E.
  assert (D0 : w_fs (read_world w) = w_fs w) by reflexivity. assert (R0 : w_reads (read_world w) = S (w_reads w)) by reflexivity.
  destruct (os_read o (w_reads w)) as [m|] eqn:Er.
  - injection E as <- <-. split; [reflexivity|]. split; [|rewrite R0; lia]. right. split; [reflexivity|]. exists (w_reads w). rewrite R0. split; [lia|congruence].
  - assert (Hx : read_bytes o w src roff chunk = firstn chunk (skipn roff (fs_data (w_fs w) src))) by (unfold read_bytes; rewrite Er; reflexivity).
    rewrite Hx in E. clear Hx. revert E D0 R0. generalize (read_world w). intros w0 E D0 R0. set (x := firstn chunk (skipn roff (fs_data (w_fs w) src))) in *.
    destruct (Nat.ltb_spec (length x) chunk) as [L|L].
    + injection E as <- <-. split; [exact D0|]. split; [|lia]. left. unfold x in *. rewrite firstn_length in L. rewrite firstn_all2 by lia. split; [reflexivity|].
      intros i Hi. replace i with (w_reads w) by lia. exact Er.
    + assert (L' : (roff + chunk <= length (fs_data (w_fs w) src))%nat) by (unfold x in L; rewrite firstn_length, skipn_length in L; lia).
      rewrite <- D0 in F. apply IH in E; [|rewrite D0 in *; lia]. destruct E as (E1 & E2 & E3). split; [congruence|]. split; [|lia].
      rewrite D0, R0 in E2. rewrite <- app_assoc, <- skipn_skipn' in E2. unfold x in E2. rewrite firstn_skipn in E2. destruct E2 as [[E2 E4]|[E2 (i & Hi & E4)]].
      * left. split; [exact E2|]. intros i Hi. destruct (Nat.eq_dec i (w_reads w)) as [->|]; [exact Er|]. apply E4. lia.
      * right. split; [exact E2|]. exists i. split; [lia|exact E4].
Qed.
Lemma sha_file P o d src w r w' : sha2_file P o src d w = (r, w') ->
  w_fs w' = w_fs w /\
  (r = Val (Some (p_sha P d (fs_data (w_fs w) src))) /\ (forall i, (w_reads w <= i < w_reads w')%nat -> os_read o i = None) \/
   r = Val None /\ exists i, (w_reads w <= i < w_reads w')%nat /\ os_read o i <> None).
Proof.
  unfold sha2_file. rewrite bind_now. assert (Hch : (0 < CHUNK)%nat) by (unfold CHUNK; lia). revert Hch. generalize CHUNK. intros chunk Hch E.
  apply sha_loop in E; [|exact Hch|unfold loop_fuel; lia]. destruct E as (E1 & E2 & _). cbn [app skipn] in E2. auto.
Qed.
Lemma round_trip P o k s d f n plain iv : aead_ok P -> ctr_ok P -> stream_ok P -> rand_ok P -> no_failures o ->
  fs_ok f -> not_temp f s d -> good_key k -> content f s = Some plain -> fits k plain -> p_rand P n (iv_len (ck_cipher k)) = Some iv ->
  exists w, file_encrypt P o (Some k) (Some s) (Some d) (start f n) = (Val true, w) /\
    forall oa s' d' f' n', fs_ok f' -> not_temp f' s' d' -> (oa = true -> ck_cipher k = AES256_GCM) ->
      content f' s' = content (w_fs w) d ->
      exists w', file_decrypt P o (Some k) (Some s') (Some d') oa (start f' n') = (Val true, w') /\ content (w_fs w') d' = Some plain.
Proof.
  intros HA HC HS HR NF Hf Ns G Hc Hfit Hiv. destruct (encrypts P o k s d f n plain iv HA HC HS HR NF Hf Ns G Hc Hfit Hiv) as (w & E & _).
  exists w. split; [exact E|]. assert (R : reads_fine o) by apply NF. assert (C : closes_fine o) by apply NF.
  destruct (success_complete P o k s d f n w HA HC HS Hf Ns R C E) as [_ H]. rewrite Hc in H. intros oa s' d' f' n'. apply H. exact NF.
Qed.
