(* Facts about file encryption and decryption. *)
From Coq Require Import ZifyBool ZifyNat ZifyN.
From Verif.Base Require Import Bytes Monad.
From Verif.Model Require Import Buffer Cipher Ecdsa Prims Engine Files.
From Verif.Spec Require Import BufferSpec CodecSpec FileSpec.
From Verif.Proofs Require Import BytesFacts BufferFacts CodecFacts EngineFacts.
Ltac Zify.zify_post_hook ::= Z.div_mod_to_equations.
Local Open Scope N_scope.

(* ---- one file changes ---- *)
Definition touches (i : nat) (f f' : fs) : Prop :=
  fs_names f' = fs_names f /\ fs_next f' = fs_next f /\ forall j, j <> i -> fs_data f' j = fs_data f j.
Definition tame (i : nat) (w w' : world) : Prop :=
  touches i (w_fs w) (w_fs w') /\
  exists es, w_log w' = (es ++ w_log w)%list /\ Forall (fun e => forall k, touches i (w_fs w) (snd e k)) es.
Lemma touches_refl i f : touches i f f.
Proof. repeat split. Qed.
Lemma touches_trans i f g h : touches i f g -> touches i g h -> touches i f h.
Proof. intros (A & B & C) (A' & B' & C'). split; [congruence|]. split; [congruence|]. intros j J. rewrite C', C by exact J. reflexivity. Qed.
Lemma tame_refl i w : tame i w w.
Proof. split; [apply touches_refl|]. exists []. split; [reflexivity|constructor]. Qed.
Lemma tame_trans i a b c : tame i a b -> tame i b c -> tame i a c.
Proof.
  intros [T (es & L & F)] [T' (es' & L' & F')]. split; [eapply touches_trans; eassumption|]. exists (es' ++ es)%list. split.
  - rewrite L', L, app_assoc. reflexivity.
  - apply Forall_app. split; [|exact F]. eapply Forall_impl; [|exact F']. cbn beta. intros e H k. eapply touches_trans; [exact T|apply H].
Qed.
Lemma touches_write i off b f : touches i f (write_at f i off b).
Proof. repeat split. intros j J. unfold write_at, set_data. cbn [fs_data]. apply Nat.eqb_neq in J. rewrite J. reflexivity. Qed.
Lemma touches_set i b f : touches i f (set_data f i b).
Proof. repeat split. intros j J. unfold set_data. cbn [fs_data]. apply Nat.eqb_neq in J. rewrite J. reflexivity. Qed.
Lemma data_set i b f : fs_data (set_data f i b) i = b.
Proof. unfold set_data. cbn [fs_data]. rewrite Nat.eqb_refl. reflexivity. Qed.

(* ---- steps ---- *)
Section Steps.
Context (P : prims) (o : os).
Definition read_world (w : world) : world :=
  {| w_fs := w_fs w; w_log := w_log w; w_reads := S (w_reads w); w_writes := w_writes w; w_rand := w_rand w |}.
Definition read_bytes (w : world) (i off n : nat) : bytes :=
  let got := firstn n (skipn off (fs_data (w_fs w) i)) in match os_read o (w_reads w) with Some k => firstn k got | None => got end.
Definition write_count (w : world) (b : bytes) : nat :=
  match os_write o (w_writes w) with Some k => Nat.min k (length b) | None => length b end.
Definition write_world (w : world) (i off : nat) (b : bytes) : world :=
  {| w_fs := write_at (w_fs w) i off (firstn (write_count w b) b);
     w_log := (write_count w b, fun k => write_at (w_fs w) i off (firstn k b)) :: w_log w;
     w_reads := w_reads w; w_writes := S (w_writes w); w_rand := w_rand w |}.
Definition rand_world (w : world) (n : nat) : world :=
  {| w_fs := w_fs w; w_log := w_log w; w_reads := w_reads w; w_writes := w_writes w; w_rand := n |}.
Definition fs_world (w : world) (f : fs) : world :=
  {| w_fs := f; w_log := (0%nat, fun _ => f) :: w_log w; w_reads := w_reads w; w_writes := w_writes w; w_rand := w_rand w |}.
Lemma bind_read {B} i off n (k : bytes -> IO B) w : io_bind (fread o i off n) k w = k (read_bytes w i off n) (read_world w).
Proof. reflexivity. Qed.
Lemma bind_write {B} i off b (k : nat -> IO B) w : io_bind (fwrite o i off b) k w = k (write_count w b) (write_world w i off b).
Proof. reflexivity. Qed.
Lemma bind_now {B} (k : fs -> IO B) w : io_bind now k w = k (w_fs w) w.
Proof. reflexivity. Qed.
Lemma bind_become {B} f (k : unit -> IO B) w : io_bind (become f) k w = k tt (fs_world w f).
Proof. reflexivity. Qed.
Lemma bind_rand {A B} (m : M A) (k : A -> IO B) w : io_bind (io_rand m) k w =
  match m (w_rand w) with (Val a, s) => k a (rand_world w s) | (Null, s) => (Null, rand_world w s) | (UB, s) => (UB, rand_world w s) end.
Proof. unfold io_bind, io_rand. destruct (m (w_rand w)) as [[a| |] s]; reflexivity. Qed.
Lemma bind_out {A B} (m : IO A) (k : A -> IO B) w a w' : m w = (Val a, w') -> io_bind m k w = k a w'.
Proof. intros H. unfold io_bind. rewrite H. reflexivity. Qed.

Lemma tame_read i w : tame i w (read_world w).
Proof. split; [apply touches_refl|]. exists []. split; [reflexivity|constructor]. Qed.
Lemma tame_rand i w n : tame i w (rand_world w n).
Proof. split; [apply touches_refl|]. exists []. split; [reflexivity|constructor]. Qed.
Lemma tame_write i w off b : tame i w (write_world w i off b).
Proof.
  split; [apply touches_write|]. eexists [_]. split; [reflexivity|]. constructor; [|constructor]. intros k. apply touches_write.
Qed.
Lemma tame_fs i w f : touches i (w_fs w) f -> tame i w (fs_world w f).
Proof. intros T. split; [exact T|]. eexists [_]. split; [reflexivity|]. constructor; [|constructor]. intros k. exact T. Qed.

(* a write that transferred everything *)
Lemma write_all w i off b : write_count w b = length b -> fs_data (w_fs (write_world w i off b)) i =
  (firstn off (fs_data (w_fs w) i) ++ b ++ skipn (off + length b) (fs_data (w_fs w) i))%list.
Proof.
  intros H. unfold write_world. cbn [w_fs]. unfold write_at. rewrite data_set, H, firstn_all. reflexivity.
Qed.
Lemma write_append w i b : write_count w b = length b ->
  fs_data (w_fs (write_world w i (length (fs_data (w_fs w) i)) b)) i = (fs_data (w_fs w) i ++ b)%list.
Proof.
  intros H. rewrite write_all by exact H. rewrite firstn_all, skipn_all2 by lia. rewrite app_nil_r. reflexivity.
Qed.

(* what is read is a prefix of what is there *)
Lemma read_prefix w i off n : exists m, read_bytes w i off n = firstn m (skipn off (fs_data (w_fs w) i)) /\ (m <= n)%nat.
Proof.
  unfold read_bytes. cbv zeta. destruct (os_read o (w_reads w)) as [k|].
  - exists (Nat.min k n). rewrite firstn_firstn. split; [reflexivity|lia].
  - exists n. auto.
Qed.
Lemma read_all w i off n : reads_fine o -> read_bytes w i off n = firstn n (skipn off (fs_data (w_fs w) i)).
Proof. intros R. unfold read_bytes. rewrite R. reflexivity. Qed.
End Steps.

(* ---- the cipher as a stream ---- *)
Section Stream.
Context (P : prims).
Lemma evp_length c k iv x : aead_ok P -> ctr_ok P -> length (evp_stream P c k iv x) = length x.
Proof. intros HA HC. destruct c; cbn [evp_stream]; [apply HA|apply HC]. Qed.
Lemma evp_prefix c k iv a b : stream_ok P -> firstn (length a) (evp_stream P c k iv (a ++ b)%list) = evp_stream P c k iv a.
Proof. intros (H1 & H2 & _). destruct c; cbn [evp_stream]; [apply H1|apply H2]. Qed.
Lemma evp_split c k iv a b : stream_ok P ->
  evp_stream P c k iv (a ++ b)%list = (evp_stream P c k iv a ++ skipn (length a) (evp_stream P c k iv (a ++ b)%list))%list.
Proof. intros HS. rewrite <- (evp_prefix c k iv a b HS). symmetry. apply firstn_skipn. Qed.
Lemma evp_nil c k iv : aead_ok P -> ctr_ok P -> evp_stream P c k iv [] = [].
Proof. intros HA HC. apply length_zero_iff_nil. rewrite evp_length by assumption. reflexivity. Qed.
Lemma evp_tail c k iv a x y : aead_ok P -> ctr_ok P -> stream_ok P ->
  (skipn (length a) (evp_stream P c k iv (a ++ x)) ++ skipn (length (a ++ x)) (evp_stream P c k iv ((a ++ x) ++ y)))%list =
  skipn (length a) (evp_stream P c k iv ((a ++ x) ++ y)%list).
Proof.
  intros HA HC HS. pose proof (evp_split c k iv (a ++ x)%list y HS) as E. set (t := evp_stream P c k iv ((a ++ x) ++ y)%list) in *.
  rewrite E at 2. rewrite skipn_app, evp_length, app_length by assumption.
  replace (length a - (length a + length x))%nat with 0%nat by lia. reflexivity.
Qed.
Lemma fits_mono c a b : evp_fits c (a ++ b)%list = true -> evp_fits c a = true.
Proof. unfold evp_fits. destruct c; [|reflexivity]. rewrite blen_app. lia. Qed.
End Stream.

Lemma firstn_skipn_more {A} (l : list A) n m : (n <= length l)%nat -> (firstn n l ++ firstn m (skipn n l))%list = firstn (n + m) l.
Proof.
  revert n. induction l as [|x l IH]; intros [|n] H; cbn [length] in *; try lia; [reflexivity|reflexivity|].
  cbn [firstn skipn app Nat.add]. rewrite IH by lia. reflexivity.
Qed.
Lemma skipn_skipn' {A} (l : list A) n m : skipn m (skipn n l) = skipn (n + m) l.
Proof. revert l. induction n as [|n IH]; intros l; [reflexivity|]. destruct l as [|x l]; [destruct m; reflexivity|]. cbn [skipn Nat.add]. apply IH. Qed.

(* ---- the loop ---- *)
Section Loop.
Context (P : prims) (o : os) (HA : aead_ok P) (HC : ctr_ok P) (HS : stream_ok P).
Context (chunk : nat) (Hchunk : (0 < chunk)%nat) (c : cipher) (k iv : bytes) (src dst : nat) (Hne : src <> dst).

Lemma loop_spec fuel : forall acc roff woff w r w',
  crypt_loop P o chunk fuel c k iv acc src roff dst woff w = (r, w') ->
  woff = length (fs_data (w_fs w) dst) ->
  tame dst w w' /\ w_rand w' = w_rand w /\ r <> Null /\
  ((length (fs_data (w_fs w) src) - roff < fuel)%nat -> r <> UB) /\
  (forall total, r = Val (Some total) ->
     exists m, total = (acc ++ firstn m (skipn roff (fs_data (w_fs w) src)))%list /\ evp_fits c total = true /\
       fs_data (w_fs w') dst = (fs_data (w_fs w) dst ++ skipn (length acc) (evp_stream P c k iv total))%list /\
       (reads_fine o -> total = (acc ++ skipn roff (fs_data (w_fs w) src))%list)) /\
  (reads_fine o -> (forall i, os_write o i = None) -> (length (fs_data (w_fs w) src) - roff < fuel)%nat ->
     evp_fits c (acc ++ skipn roff (fs_data (w_fs w) src))%list = true -> exists total, r = Val (Some total)).
Proof.
  induction fuel as [|fuel IH]; intros acc roff woff w r w' E Hw.
  - cbn [crypt_loop] in E. injection E as <- <-. split; [apply tame_refl|]. split; [reflexivity|]. split; [discriminate|].
    split; [intros F; lia|]. split; [discriminate|]. intros _ _ F. lia.
  - cbn [crypt_loop] in E. rewrite bind_read in E. set (x := read_bytes o w src roff chunk) in *.
    destruct (read_prefix o w src roff chunk) as (m & Hm & Lm). fold x in Hm.
    assert (Hall : reads_fine o -> x = firstn chunk (skipn roff (fs_data (w_fs w) src))) by (intros R; apply read_all; exact R).
    assert (Lx : (length x <= chunk)%nat) by (rewrite Hm, firstn_length; lia).
    assert (Hpre : reads_fine o -> skipn roff (fs_data (w_fs w) src) = (x ++ skipn chunk (skipn roff (fs_data (w_fs w) src)))%list)
      by (intros R; rewrite (Hall R); symmetry; apply firstn_skipn).
    clearbody x. cbv zeta in E.
    destruct (evp_fits c (acc ++ x)%list) eqn:Ef; cbn [negb] in E.
    2:{ injection E as <- <-. split; [apply tame_read|]. split; [reflexivity|]. split; [discriminate|]. split; [discriminate|].
        split; [discriminate|]. intros R _ _ F. rewrite (Hpre R), app_assoc in F. apply fits_mono in F. congruence. }
    rewrite bind_write in E. set (out := skipn (length acc) (evp_stream P c k iv (acc ++ x)%list)) in *.
    assert (Lout : length out = length x) by (unfold out; rewrite skipn_length, evp_length, app_length by assumption; lia).
    set (w1 := write_world o (read_world w) dst woff out) in *.
    assert (T1 : tame dst w w1) by (eapply tame_trans; [apply tame_read|apply tame_write]).
    assert (D1 : fs_data (w_fs w1) src = fs_data (w_fs w) src) by (destruct T1 as [(_ & _ & T) _]; apply T; exact Hne).
    assert (W1 : write_count o (read_world w) out = length out -> fs_data (w_fs w1) dst = (fs_data (w_fs w) dst ++ out)%list).
    { intros Hc. unfold w1. rewrite Hw. apply (write_append o (read_world w) dst out). exact Hc. }
    assert (R1 : w_rand w1 = w_rand w) by reflexivity. clearbody w1.
    destruct (Nat.eqb_spec (write_count o (read_world w) out) (length out)) as [Hc|Hc]; cbn [negb] in E.
    2:{ injection E as <- <-. split; [exact T1|]. split; [exact R1|]. split; [discriminate|]. split; [discriminate|].
        split; [discriminate|]. intros _ Wf. exfalso. apply Hc. unfold write_count. rewrite Wf. reflexivity. }
    specialize (W1 Hc).
    destruct (Nat.ltb_spec (length x) chunk) as [Hs|Hs].
    + injection E as <- <-. split; [exact T1|]. split; [exact R1|]. split; [discriminate|]. split; [discriminate|].
      split; [|intros _ _ _ _; eauto].
      intros total Et. apply Val_inj, Some_inj in Et. subst total. exists m. split; [rewrite Hm; reflexivity|]. split; [exact Ef|].
      split; [exact W1|]. intros R. rewrite (Hall R). f_equal. apply firstn_all2. rewrite (Hall R), firstn_length in Hs. lia.
    + assert (Hfull : (roff + chunk <= length (fs_data (w_fs w) src))%nat).
      { rewrite Hm, firstn_length, skipn_length in Hs. lia. }
      assert (Hx : x = firstn chunk (skipn roff (fs_data (w_fs w) src))).
      { rewrite Hm. f_equal. rewrite Hm, firstn_length in Hs. lia. }
      assert (Hw1 : (woff + length out)%nat = length (fs_data (w_fs w1) dst)) by (rewrite W1, app_length; lia).
      specialize (IH (acc ++ x)%list (roff + chunk)%nat (woff + length out)%nat w1 r w' E Hw1).
      rewrite D1 in IH. destruct IH as (T2 & R2 & N2 & U2 & V2 & G2).
      split; [eapply tame_trans; eassumption|]. split; [congruence|]. split; [exact N2|]. split; [intros F; apply U2; lia|]. split.
      * intros total Et. destruct (V2 total Et) as (m' & H1 & H2 & H3 & H4). exists (chunk + m')%nat.
        assert (J : (x ++ firstn m' (skipn (roff + chunk) (fs_data (w_fs w) src)))%list = firstn (chunk + m') (skipn roff (fs_data (w_fs w) src))).
        { rewrite Hx, <- skipn_skipn'. apply firstn_skipn_more. rewrite skipn_length. lia. }
        split; [rewrite H1, <- app_assoc, J; reflexivity|]. split; [exact H2|]. split.
        -- rewrite H3, W1, <- app_assoc. f_equal. unfold out. rewrite H1. apply evp_tail; assumption.
        -- intros R. rewrite (H4 R), <- app_assoc. f_equal. rewrite (Hpre R) at 1. rewrite skipn_skipn'. reflexivity.
      * intros R Wf F Hf. apply (G2 R Wf); [lia|]. rewrite <- app_assoc. rewrite (Hpre R), skipn_skipn' in Hf. exact Hf.
Qed.
End Loop.

(* ---- encryption of a file ---- *)
Definition head_len (c : cipher) : nat := match c with AES256_GCM => 29 | AES256_CTR => 17 end.
Definition file_head (c : cipher) (iv tag : bytes) : bytes :=
  match c with AES256_GCM => x00 :: iv ++ tag | AES256_CTR => x01 :: iv end%list.
Lemma file_head_len c iv tag : blen iv = iv_len c -> blen tag = auth_tag_len c -> length (file_head c iv tag) = head_len c.
Proof. intros A B. unfold blen in *. destruct c; cbn [file_head iv_len auth_tag_len head_len length] in *; rewrite ?app_length; lia. Qed.
Lemma head_serialize c iv tag : blen iv = iv_len c -> blen tag = auth_tag_len c ->
  cipher_result_serialize (Some {| cr_cipher := c; cr_iv := iv; cr_text := None; cr_tag := match c with AES256_GCM => Some tag | AES256_CTR => None end |})
  = Some (file_head c iv tag).
Proof.
  intros A B. rewrite result_serialize_ok.
  - unfold result_wire, file_head. cbn [cr_cipher cr_iv cr_text cr_tag]. destruct c; cbn [bytes_of]; rewrite ?app_nil_r; reflexivity.
  - unfold good_result. cbn [cr_cipher cr_iv cr_text cr_tag]. unfold blen in *. split; [|discriminate].
    destruct c; cbn [iv_len auth_tag_len] in *; split; try lia; [exists tag; split; [reflexivity|lia]|reflexivity].
  - unfold result_wire. cbn [cr_cipher cr_iv cr_text cr_tag]. unfold within_limit, library_limit.
    destruct c; cbn [bytes_of iv_len auth_tag_len] in *; rewrite blen_cons, !blen_app; change (blen []) with 0; lia.
Qed.

Section Encrypt.
Context (P : prims) (o : os) (HA : aead_ok P) (HC : ctr_ok P) (HS : stream_ok P).
Context (src dst : nat) (Hne : src <> dst).

Lemma file_tag_len c k iv x : blen (match c with AES256_GCM => snd (p_gcm_enc P k iv [] x) | AES256_CTR => [] end) = auth_tag_len c.
Proof. destruct c; [|reflexivity]. destruct (HA k iv [] x) as (_ & L & _). unfold blen. rewrite L. reflexivity. Qed.
Lemma encrypted_file_eq key iv x : encrypted_file P key iv x =
  (file_head (ck_cipher key) iv (match ck_cipher key with AES256_GCM => snd (p_gcm_enc P (ck_data key) iv [] x) | AES256_CTR => [] end)
   ++ evp_stream P (ck_cipher key) (ck_data key) iv x)%list.
Proof. unfold encrypted_file, file_head, evp_stream. destruct (ck_cipher key); cbn [app]; rewrite <- ?app_assoc; reflexivity. Qed.

Lemma draw_cases c s : mtry (crypto_random P (iv_len c)) s = (Val (p_rand P s (iv_len c)), S s).
Proof.
  unfold mtry, crypto_random. replace (INT_MAX <? iv_len c) with false by (destruct c; reflexivity).
  replace (negb (size_ok (iv_len c))) with false by (destruct c; reflexivity). destruct (p_rand P s (iv_len c)); reflexivity.
Qed.
Lemma first_result c iv junk r :
  cipher_result_create c iv None (if size_ok (auth_tag_len c) then Some (junk (auth_tag_len c)) else None) = Some r ->
  exists v, iv = Some v /\ blen v = iv_len c /\ exists t, blen t = auth_tag_len c /\
    r = {| cr_cipher := c; cr_iv := v; cr_text := None; cr_tag := match c with AES256_GCM => Some t | AES256_CTR => None end |}.
Proof.
  destruct iv as [v|]; [|discriminate]. intros H. apply result_create_good in H. destruct H as (-> & L & H). exists v. split; [reflexivity|]. split; [exact L|].
  destruct c.
  - destruct H as (t & H & Lt). exists t. split; [exact Lt|]. rewrite H. reflexivity.
  - exists []. split; reflexivity.
Qed.

Lemma encrypt_spec key w r w' : encrypt_file P o src key dst w = (r, w') -> fs_data (w_fs w) dst = [] ->
  tame dst w w' /\ (exists b, r = Val b) /\
  (r = Val true -> good_key key /\ exists iv m, p_rand P (w_rand w) (iv_len (ck_cipher key)) = Some iv /\ blen iv = iv_len (ck_cipher key) /\
     let plain := firstn m (fs_data (w_fs w) src) in
     fits key plain /\
     fs_data (w_fs w') dst = encrypted_file P key iv plain /\ (reads_fine o -> plain = fs_data (w_fs w) src)) /\
  (no_failures o -> rand_ok P -> good_key key -> p_rand P (w_rand w) (iv_len (ck_cipher key)) <> None ->
     fits key (fs_data (w_fs w) src) -> r = Val true).
Proof.
  unfold encrypt_file. cbv zeta. rewrite bind_rand, draw_cases. set (c := ck_cipher key). intros E H0.
  set (w0 := rand_world w (S (w_rand w))) in *.
  assert (T0 : tame dst w w0) by apply tame_rand.
  assert (D0 : w_fs w0 = w_fs w) by reflexivity. clearbody w0.
  destruct (cipher_result_create c (p_rand P (w_rand w) (iv_len c)) None _) as [r1|] eqn:Ec.
  2:{ cbn [cipher_result_serialize] in E. injection E as <- <-. split; [exact T0|]. split; [eauto|]. split; [discriminate|].
      intros (_ & _ & _ & _ & _ & _ & _ & J) HR _ Hr _. exfalso. destruct (p_rand P (w_rand w) (iv_len c)) as [v|] eqn:Er; [|congruence].
      apply HR in Er. revert Ec. unfold cipher_result_create. rewrite Er, N.eqb_refl. cbn [negb].
      specialize (J (auth_tag_len c)). destruct c; cbn [is_authenticated auth_tag_len andb] in *; change (size_ok 16) with true; change (size_ok 0) with false; cbn iota.
      - rewrite J. cbn. discriminate.
      - discriminate. }
  apply first_result in Ec. destruct Ec as (iv & Er & Liv & t & Lt & ->).
  rewrite (head_serialize c iv t Liv Lt) in E. rewrite bind_write in E. cbn [cr_iv cr_tag] in E.
  pose proof (file_head_len c iv t Liv Lt) as Lh. set (h := file_head c iv t) in *.
  set (w1 := write_world o w0 dst 0 h) in *.
  assert (T1 : tame dst w w1) by (eapply tame_trans; [exact T0|apply tame_write]).
  assert (D1 : fs_data (w_fs w1) src = fs_data (w_fs w) src) by (destruct T1 as [(_ & _ & T) _]; apply T; exact Hne).
  assert (W1 : write_count o w0 h = length h -> fs_data (w_fs w1) dst = h).
  { intros Hc. unfold w1. rewrite write_all by exact Hc. rewrite D0, H0, skipn_nil, app_nil_r. reflexivity. }
  clearbody w1 h. destruct (Nat.eqb_spec (write_count o w0 h) (length h)) as [Hc|Hc]; cbn [negb] in E.
  2:{ injection E as <- <-. split; [exact T1|]. split; [eauto|]. split; [discriminate|]. intros (_ & _ & _ & Wf & _). exfalso. apply Hc.
      unfold write_count. rewrite Wf. reflexivity. }
  specialize (W1 Hc).
  destruct (N.eqb_spec (blen (ck_data key)) (key_len c)) as [Hk|Hk]; cbn [negb] in E.
  2:{ injection E as <- <-. split; [exact T1|]. split; [eauto|]. split; [discriminate|]. intros _ _ G _. exfalso. apply Hk.
      unfold good_key in G. unfold blen. rewrite G. destruct c; reflexivity. }
  assert (Gk : good_key key) by (unfold good_key; unfold blen in Hk; destruct c; cbn [key_len] in Hk; lia).
  rewrite bind_now in E. unfold io_bind at 1 in E.
  destruct (crypt_loop _ _ _ _ _ _ _ _ _ _ _ _ _) as [r2 w2] eqn:El.
  assert (Hw : length h = length (fs_data (w_fs w1) dst)) by (rewrite W1; reflexivity).
  pose proof (loop_spec P o HA HC HS CHUNK ltac:(unfold CHUNK; lia) c (ck_data key) iv src dst Hne _ _ _ _ _ _ _ El Hw) as (T2 & _ & N2 & U2 & V2 & G2).
  assert (Hfuel : (length (fs_data (w_fs w1) src) - 0 < loop_fuel (w_fs w1) src)%nat) by (unfold loop_fuel; lia).
  specialize (U2 Hfuel). rewrite D1 in V2, G2, Hfuel. cbn [skipn app length] in V2, G2. rewrite W1 in V2.
  assert (T12 : tame dst w w2) by (eapply tame_trans; eassumption).
  destruct r2 as [[x|]| |]; [|injection E as <- <-|congruence|congruence].
  2:{ split; [exact T12|]. split; [eauto|]. split; [discriminate|]. intros (_ & _ & R & Wf & _) _ _ _ Hf.
      destruct (G2 R Wf Hfuel) as (total & Et); [|discriminate].
      unfold fits in Hf. unfold evp_fits, GCM_LIMIT. fold c in Hf. destruct c; [|reflexivity]. specialize (Hf eq_refl). change (2 ^ 36 - 32) with 68719476704 in Hf. lia. }
  destruct (V2 x eq_refl) as (m & Hx & Hfit & D2 & HR). clear V2 G2.
  set (tag' := match c with AES256_GCM => snd (p_gcm_enc P (ck_data key) iv [] x) | AES256_CTR => [] end) in *.
  assert (Lt' : blen tag' = auth_tag_len c) by apply file_tag_len.
  replace (match c with AES256_GCM => Some (snd (p_gcm_enc P (ck_data key) iv [] x)) | AES256_CTR => match c with AES256_GCM => Some t | AES256_CTR => None end end)
    with (match c with AES256_GCM => Some tag' | AES256_CTR => None end) in E by (unfold tag'; destruct c; reflexivity).
  rewrite (head_serialize c iv tag' Liv Lt') in E. rewrite bind_write in E. injection E as <- <-.
  split; [eapply tame_trans; [exact T12|apply tame_write]|]. split; [eauto|]. split.
  - intros Hr. apply Val_inj in Hr. apply Nat.eqb_eq in Hr. split; [exact Gk|]. exists iv, m. split; [exact Er|]. split; [exact Liv|]. cbv zeta. rewrite <- Hx.
    split.
    { unfold fits. fold c. intros Hg. unfold evp_fits, GCM_LIMIT in Hfit. rewrite Hg in Hfit. change (2 ^ 36 - 32) with 68719476704. lia. }
    split; [|exact HR].
    rewrite write_all by exact Hr. rewrite D2. cbn [firstn app Nat.add]. rewrite (file_head_len c iv tag' Liv Lt').
    rewrite skipn_app_exact by (symmetry; exact Lh). symmetry. apply encrypted_file_eq.
  - intros (_ & _ & _ & Wf & _) _ _ _ _. f_equal. unfold write_count. rewrite Wf. apply Nat.eqb_refl.
Qed.
End Encrypt.

(* ---- decryption of a file ---- *)
Lemma mode_cases b m : cipher_find (b2n b) = Some m -> b = match m with AES256_GCM => x00 | AES256_CTR => x01 end.
Proof.
  unfold cipher_find. destruct (N.eqb_spec (b2n b) 0) as [E|_]; [|destruct (N.eqb_spec (b2n b) 1) as [E|_]; [|discriminate]]; intros H; apply Some_inj in H; subst m;
    apply b2n_inj; rewrite E; reflexivity.
Qed.
Lemma head_parse c h : blen h = iv_len c + auth_tag_len c ->
  let iv := firstn (N.to_nat (iv_len c)) h in let tag := skipn (N.to_nat (iv_len c)) h in
  blen iv = iv_len c /\ blen tag = auth_tag_len c /\
  match c with AES256_GCM => x00 | AES256_CTR => x01 end :: h = file_head c iv tag /\
  cipher_result_from_buffer (buffer_create (match c with AES256_GCM => x00 | AES256_CTR => x01 end :: h)) =
    Val {| cr_cipher := c; cr_iv := iv; cr_text := None; cr_tag := match c with AES256_GCM => Some tag | AES256_CTR => None end |}.
Proof.
  intros L iv tag. assert (A : blen iv = iv_len c) by (unfold iv, blen in *; rewrite firstn_length; lia).
  assert (B : blen tag = auth_tag_len c) by (unfold tag, blen in *; rewrite skipn_length; lia).
  assert (E : match c with AES256_GCM => x00 | AES256_CTR => x01 end :: h = file_head c iv tag).
  { unfold file_head, iv, tag. destruct c; f_equal; [symmetry; apply firstn_skipn|]. cbn [iv_len auth_tag_len] in *. unfold blen in L. symmetry. apply firstn_all2. lia. }
  split; [exact A|]. split; [exact B|]. split; [exact E|].
  rewrite E. unfold buffer_create. pose proof (file_head_len c iv tag A B) as Lh.
  replace (size_ok (blen (file_head c iv tag))) with true.
  2:{ symmetry. unfold blen. rewrite Lh. destruct c; reflexivity. }
  rewrite <- (result_parse_ok {| cr_cipher := c; cr_iv := iv; cr_text := None; cr_tag := match c with AES256_GCM => Some tag | AES256_CTR => None end |}).
  - unfold result_wire, file_head. cbn [cr_cipher cr_iv cr_text cr_tag]. destruct c; cbn [bytes_of app]; rewrite ?app_nil_r; reflexivity.
  - unfold good_result. cbn [cr_cipher cr_iv cr_text cr_tag]. split; [|discriminate]. unfold blen in *.
    destruct c; cbn [iv_len auth_tag_len] in *; split; try lia; [exists tag; split; [reflexivity|lia]|reflexivity].
  - unfold result_wire. cbn [cr_cipher cr_iv cr_text cr_tag]. unfold within_limit, library_limit.
    destruct c; cbn [bytes_of iv_len auth_tag_len] in *; rewrite blen_cons, !blen_app; change (blen []) with 0; lia.
Qed.
Lemma head_parse' c mb h : mb = match c with AES256_GCM => x00 | AES256_CTR => x01 end -> blen h = iv_len c + auth_tag_len c ->
  exists iv tag, blen iv = iv_len c /\ blen tag = auth_tag_len c /\ mb :: h = file_head c iv tag /\
  cipher_result_from_buffer (buffer_create (mb :: h)) =
    Val {| cr_cipher := c; cr_iv := iv; cr_text := None; cr_tag := match c with AES256_GCM => Some tag | AES256_CTR => None end |}.
Proof. intros -> L. do 2 eexists. apply (head_parse c h L). Qed.
Lemma opened_head P c key oa iv tag ct plain : blen iv = iv_len c -> blen tag = auth_tag_len c ->
  opened_file P key oa (file_head c iv tag ++ ct)%list plain <->
  (oa = true -> c = AES256_GCM) /\
  match c with AES256_GCM => p_gcm_dec P (ck_data key) iv [] ct tag = Some plain | AES256_CTR => plain = p_ctr P (ck_data key) iv ct end.
Proof.
  intros A B. unfold blen in *. unfold opened_file, file_head. destruct c; cbn [iv_len auth_tag_len app] in *; split.
  - intros [(iv' & tag' & ct' & E & L1 & L2 & D)|(_ & iv' & ct' & E & _)]; [|discriminate]. split; [reflexivity|].
    injection E as E. rewrite <- app_assoc in E. apply app_inj_length_l' in E; [|lia]. destruct E as [-> E]. apply app_inj_length_l' in E; [|lia]. destruct E as [-> ->]. exact D.
  - intros [_ D]. left. exists iv, tag, ct. rewrite <- app_assoc. repeat split; try lia. exact D.
  - intros [(iv' & tag' & ct' & E & _)|(-> & iv' & ct' & E & L & D)]; [discriminate|]. split; [discriminate|].
    injection E as E. apply app_inj_length_l' in E; [|lia]. destruct E as [-> ->]. exact D.
  - intros [O ->]. right. split; [destruct oa; [discriminate (O eq_refl)|reflexivity]|]. exists iv, ct. repeat split. lia.
Qed.
Lemma opened_has_head P key oa D plain : opened_file P key oa D plain ->
  exists c iv tag ct, D = (file_head c iv tag ++ ct)%list /\ blen iv = iv_len c /\ blen tag = auth_tag_len c.
Proof.
  intros [(iv & tag & ct & E1 & L1 & L2 & _)|(_ & iv & ct & E1 & L1 & _)].
  - exists AES256_GCM, iv, tag, ct. cbn [file_head iv_len auth_tag_len]. unfold blen. rewrite E1, L1, L2. cbn [app]. rewrite <- app_assoc. auto.
  - exists AES256_CTR, iv, [], ct. cbn [file_head iv_len auth_tag_len]. unfold blen. rewrite E1, L1. auto.
Qed.
Lemma opened_fits P key oa mode iv tag ct plain : aead_ok P -> stream_ok P -> blen iv = iv_len mode -> blen tag = auth_tag_len mode ->
  opened_file P key oa (file_head mode iv tag ++ ct)%list plain ->
  (nth_error (file_head mode iv tag ++ ct)%list 0 = Some x00 -> blen plain <= 2 ^ 36 - 32) -> evp_fits mode ct = true.
Proof.
  intros HA HS L1 L2 O Hl. apply opened_head in O; [|assumption|assumption]. destruct O as [_ O]. unfold evp_fits, GCM_LIMIT. destruct mode; [|reflexivity].
  destruct HS as (_ & _ & HX). apply HX in O. assert (Lp : length plain = length ct) by (rewrite <- O; apply HA).
  specialize (Hl eq_refl). unfold blen in *. change (2 ^ 36 - 32) with 68719476704 in Hl. lia.
Qed.
Section Decrypt.
Context (P : prims) (o : os) (HA : aead_ok P) (HC : ctr_ok P) (HS : stream_ok P).
Context (src dst : nat) (Hne : src <> dst).
Lemma body_spec mode iv tag key oa h roff w r w' : blen iv = iv_len mode -> blen tag = auth_tag_len mode -> (oa = true -> mode = AES256_GCM) ->
  let D := fs_data (w_fs w) src in
  h = file_head mode iv tag -> D = (h ++ skipn roff D)%list -> length h = roff -> fs_data (w_fs w) dst = [] ->
  decrypt_body P o src key dst {| cr_cipher := mode; cr_iv := iv; cr_text := None; cr_tag := match mode with AES256_GCM => Some tag | AES256_CTR => None end |} roff w = (r, w') ->
  tame dst w w' /\ (exists b, r = Val b) /\
  (r = Val true -> good_key key /\ exists m, let read := firstn m D in
     opened_file P key oa read (fs_data (w_fs w') dst) /\ (reads_fine o -> read = D)) /\
  (forall plain, no_failures o -> good_key key -> opened_file P key oa D plain ->
     (nth_error D 0 = Some x00 -> blen plain <= 2 ^ 36 - 32) -> r = Val true).
Proof.
  intros Liv Ltag Oa D Hh HD Lh H0. unfold decrypt_body. cbn [cr_cipher cr_iv cr_tag]. intros E.
  destruct (N.eqb_spec (blen (ck_data key)) (key_len mode)) as [Hk|Hk]; cbn [negb] in E.
  2:{ injection E as <- <-. split; [apply tame_refl|]. split; [eauto|]. split; [discriminate|]. intros plain _ G _ _. exfalso. apply Hk.
      unfold good_key in G. unfold blen. rewrite G. destruct mode; reflexivity. }
  assert (Gk : good_key key) by (unfold good_key; unfold blen in Hk; destruct mode; cbn [key_len] in Hk; lia).
  replace (is_authenticated mode && _) with false in E.
  2:{ symmetry. destruct mode; [|reflexivity]. rewrite Ltag, N.eqb_refl. reflexivity. }
  rewrite bind_now in E. unfold io_bind at 1 in E.
  assert (Hch : (0 < CHUNK)%nat) by (unfold CHUNK; lia). revert E Hch. generalize CHUNK. intros chunk E Hch.
  destruct (crypt_loop _ _ _ _ _ _ _ _ _ _ _ _ _) as [r2 w2] eqn:El.
  assert (Hw : 0%nat = length (fs_data (w_fs w) dst)) by (rewrite H0; reflexivity).
  pose proof (loop_spec P o HA HC HS chunk Hch mode (ck_data key) iv src dst Hne _ _ _ _ _ _ _ El Hw) as (T2 & _ & N2 & U2 & V2 & G2). clear El.
  assert (Hfuel : (length (fs_data (w_fs w) src) - roff < loop_fuel (w_fs w) src)%nat) by (unfold loop_fuel; lia).
  specialize (U2 Hfuel). rewrite H0 in V2. fold D in V2, G2, Hfuel. cbn [app length] in V2, G2.
  clearbody D.
  destruct r2 as [[x|]| |]; [|injection E as <- <-|congruence|congruence].
  2:{ split; [exact T2|]. split; [eauto|]. split; [discriminate|]. intros plain (_ & _ & R & Wf & _) _ O Hl.
      destruct (G2 R Wf Hfuel) as (total & Et); [|discriminate].
      apply (opened_fits P key oa mode iv tag _ plain HA HS Liv Ltag); rewrite <- Hh, <- HD; assumption. }
  destruct (V2 x eq_refl) as (m & Hx & Hfit & D2 & HR). clear V2 G2 U2 N2. cbn [skipn app] in D2.
  injection E as <- <-. split; [exact T2|]. split; [eauto|].
  split.
  - intros Hr. apply Val_inj in Hr. split; [exact Gk|]. exists (roff + m)%nat. cbv zeta.
    assert (Hread : firstn (roff + m) D = (file_head mode iv tag ++ x)%list).
    { rewrite HD, <- Hh, firstn_app, (firstn_all2 h) by lia.
      replace (roff + m - length h)%nat with m by lia. rewrite Hx. reflexivity. }
    rewrite Hread. split.
    + apply opened_head; [assumption|assumption|]. split; [exact Oa|]. rewrite D2. destruct mode; cbn [evp_stream]; [|reflexivity].
      cbn [obytes] in Hr. destruct (p_gcm_dec P (ck_data key) iv [] x tag) as [pt|] eqn:Ed; [|discriminate]. destruct HS as (_ & _ & HX). rewrite (HX _ _ _ _ _ Ed). reflexivity.
    + intros R. rewrite (HR R), <- Hh. symmetry. exact HD.
  - intros plain (_ & _ & R & _) _ O _. f_equal. rewrite HD, Hh, <- (HR R) in O. apply opened_head in O; [|assumption|assumption]. destruct O as [_ O].
    destruct mode; [|reflexivity]. cbn [obytes]. rewrite O. reflexivity.
Qed.
Definition decrypted (key : cipher_key) (oa : bool) (D : bytes) (w : world) (r : res bool) (w' : world) : Prop :=
  tame dst w w' /\ (exists b, r = Val b) /\
  (r = Val true -> good_key key /\ exists m, let read := firstn m D in
     opened_file P key oa read (fs_data (w_fs w') dst) /\ (reads_fine o -> read = D)) /\
  (forall plain, no_failures o -> good_key key -> opened_file P key oa D plain ->
     (nth_error D 0 = Some x00 -> blen plain <= 2 ^ 36 - 32) -> r = Val true).
Lemma refused key oa D w w' : tame dst w w' ->
  (forall plain, no_failures o -> opened_file P key oa D plain -> False) -> decrypted key oa D w (Val false) w'.
Proof. intros T F. split; [exact T|]. split; [eauto|]. split; [discriminate|]. intros plain NF _ O _. destruct (F plain NF O). Qed.

Definition head_step (key : cipher_key) (mb : byte) (rest : nat) (h : bytes) : IO bool :=
  if negb (Nat.eqb (length h) rest) then io_ret false
  else
    match cipher_result_from_buffer (buffer_create (mb :: h)) with
    | Val r => decrypt_body P o src key dst r (1 + rest)
    | _ => io_res UB
    end.
Lemma head_eq key mb rest w : decrypt_head P o src key dst mb rest w = head_step key mb rest (read_bytes o w src 1 rest) (read_world w).
Proof. reflexivity. Qed.
Lemma head_step_short key mb rest h w : length h <> rest -> head_step key mb rest h w = (Val false, w).
Proof. intros L. unfold head_step. apply Nat.eqb_neq in L. rewrite L. reflexivity. Qed.
Lemma head_step_full key mb rest h w r : length h = rest -> cipher_result_from_buffer (buffer_create (mb :: h)) = Val r ->
  head_step key mb rest h w = decrypt_body P o src key dst r (1 + rest) w.
Proof. intros L H. unfold head_step. apply Nat.eqb_eq in L. rewrite L, H. reflexivity. Qed.
Lemma head_spec mode mb key oa w r w' : mb = match mode with AES256_GCM => x00 | AES256_CTR => x01 end -> (oa = true -> mode = AES256_GCM) ->
  nth_error (fs_data (w_fs w) src) 0 = Some mb -> fs_data (w_fs w) dst = [] ->
  decrypt_head P o src key dst mb (N.to_nat (iv_len mode + auth_tag_len mode)) w = (r, w') -> decrypted key oa (fs_data (w_fs w) src) w r w'.
Proof.
  intros Ef Oa Hmb H0. assert (Hrest : N.of_nat (N.to_nat (iv_len mode + auth_tag_len mode)) = iv_len mode + auth_tag_len mode) by lia.
  revert Hrest. generalize (N.to_nat (iv_len mode + auth_tag_len mode)). intros rest Hrest.
  rewrite head_eq. destruct (read_prefix o w src 1 rest) as (m1 & Hm1 & Lm1).
  pose proof (read_all o w src 1 rest) as Hall1. revert Hm1 Hall1. generalize (read_bytes o w src 1 rest). intros h Hm1 Hall1 E.
  pose proof (tame_read dst w) as T1. assert (D1 : w_fs (read_world w) = w_fs w) by reflexivity. revert E T1 D1. generalize (read_world w). intros w1 E T1 D1.
  assert (HD : fs_data (w_fs w) src = mb :: skipn 1 (fs_data (w_fs w) src)).
  { revert Hmb. generalize (fs_data (w_fs w) src). intros [|d D] Hmb; [discriminate|]. cbn [nth_error] in Hmb. injection Hmb as ->. reflexivity. }
  destruct (Nat.eq_dec (length h) rest) as [Lh|Lh].
  2:{ rewrite (head_step_short key mb rest h w1 Lh) in E. injection E as <- <-. apply refused; [exact T1|]. intros plain (_ & _ & R & _) O. apply Lh.
      destruct (opened_has_head _ _ _ _ _ O) as (c & iv & tag & ct & E1 & L1 & L2).
      assert (c = mode) by (rewrite E1, Ef in Hmb; destruct c, mode; cbn [file_head app nth_error] in Hmb; congruence). subst c.
      rewrite (Hall1 R), firstn_length, skipn_length, E1, app_length, (file_head_len mode iv tag L1 L2). destruct mode; cbn [head_len iv_len auth_tag_len] in *; lia. }
  assert (Hh : h = firstn rest (skipn 1 (fs_data (w_fs w) src))).
  { rewrite Hm1. f_equal. rewrite Hm1, firstn_length in Lh. lia. }
  assert (HD2 : fs_data (w_fs w) src = ((mb :: h) ++ skipn (1 + rest) (fs_data (w_fs w) src))%list).
  { rewrite HD at 1. cbn [app]. f_equal. rewrite Hh, <- skipn_skipn'. symmetry. apply firstn_skipn. }
  assert (Lh' : blen h = iv_len mode + auth_tag_len mode) by (unfold blen; lia).
  destruct (head_parse' mode mb h Ef Lh') as (iv & tag & Liv & Ltag & Hhead & Hparse).
  rewrite (head_step_full key mb rest h w1 _ Lh Hparse) in E. clear Hparse.
  assert (Lr : length (mb :: h) = (1 + rest)%nat) by (cbn [length]; lia).
  pose proof (body_spec mode iv tag key oa (mb :: h) (1 + rest) w1 r w' Liv Ltag Oa) as B2. cbv zeta in B2. rewrite D1 in B2.
  specialize (B2 Hhead HD2 Lr H0 E). destruct B2 as (T2 & B2). split; [eapply tame_trans; eassumption|exact B2].
Qed.
Lemma decrypt_spec key oa w r w' : decrypt_file P o src key dst oa w = (r, w') -> fs_data (w_fs w) dst = [] ->
  decrypted key oa (fs_data (w_fs w) src) w r w'.
Proof.
  unfold decrypt_file. rewrite bind_read. destruct (read_prefix o w src 0 1) as (m0 & Hm0 & Lm0). cbn [skipn] in Hm0.
  pose proof (read_all o w src 0 1) as Hall0. cbn [skipn] in Hall0. revert Hm0 Hall0. generalize (read_bytes o w src 0 1). intros b Hm0 Hall0 E H0.
  pose proof (tame_read dst w) as T0. assert (D0 : w_fs (read_world w) = w_fs w) by reflexivity. revert E T0 D0. generalize (read_world w). intros w0 E T0 D0.
  assert (Nb : forall plain, no_failures o -> opened_file P key oa (fs_data (w_fs w) src) plain ->
    exists c ct, opened_file P key oa (fs_data (w_fs w) src) plain /\ b = [match c with AES256_GCM => x00 | AES256_CTR => x01 end] /\ (oa = true -> c = AES256_GCM) /\ ct = plain).
  { intros plain (_ & _ & R & _) O. destruct (opened_has_head _ _ _ _ _ O) as (c & iv & tag & ct & E1 & L1 & L2). exists c, plain. split; [exact O|].
    split; [rewrite (Hall0 R), E1; destruct c; reflexivity|]. split; [|reflexivity]. rewrite E1 in O. apply opened_head in O; [apply O|assumption|assumption]. }
  destruct b as [|mb [|mb' b']].
  { injection E as <- <-. apply refused; [exact T0|]. intros plain NF O. destruct (Nb plain NF O) as (c & _ & _ & Eb & _). discriminate. }
  2:{ exfalso. apply (f_equal (@length byte)) in Hm0. rewrite firstn_length in Hm0. cbn [length] in Hm0. lia. }
  destruct (cipher_find (b2n mb)) as [mode|] eqn:Ef.
  2:{ injection E as <- <-. apply refused; [exact T0|]. intros plain NF O. destruct (Nb plain NF O) as (c & _ & _ & Eb & _). injection Eb as ->. destruct c; discriminate. }
  apply mode_cases in Ef.
  destruct (oa && negb (is_authenticated mode)) eqn:Eo.
  { injection E as <- <-. apply refused; [exact T0|]. intros plain NF O. destruct (Nb plain NF O) as (c & _ & _ & Eb & Oc & _). injection Eb as Eb.
    apply andb_prop in Eo. destruct Eo as [-> Eo]. rewrite (Oc eq_refl) in Eb. destruct mode; [discriminate|]. congruence. }
  assert (Oa : oa = true -> mode = AES256_GCM) by (intros ->; destruct mode; [reflexivity|discriminate]).
  assert (Hmb : nth_error (fs_data (w_fs w0) src) 0 = Some mb).
  { rewrite D0. revert Hm0. generalize (fs_data (w_fs w) src). intros [|d D] Hm0; [rewrite firstn_nil in Hm0; discriminate|]. destruct m0; [discriminate|].
    cbn [firstn] in Hm0. injection Hm0 as <- _. reflexivity. }
  assert (H1 : fs_data (w_fs w0) dst = []) by (rewrite D0; exact H0).
  pose proof (head_spec mode mb key oa w0 r w' Ef Oa Hmb H1 E) as B. rewrite D0 in B. destruct B as (T2 & B). split; [eapply tame_trans; eassumption|exact B].
Qed.
End Decrypt.

(* ---- whatever happens, only the output file changes ---- *)
Section Tame.
Context (P : prims) (o : os) (src dst : nat).
Lemma loop_tame chunk fuel : forall c k iv acc roff woff w r w',
  crypt_loop P o chunk fuel c k iv acc src roff dst woff w = (r, w') -> tame dst w w'.
Proof.
  induction fuel as [|fuel IH]; intros c k iv acc roff woff w r w' E.
  - cbn [crypt_loop] in E. injection E as _ <-. apply tame_refl.
  - cbn [crypt_loop] in E. rewrite bind_read in E. pose proof (tame_read dst w) as T0. revert E T0. generalize (read_bytes o w src roff chunk) (read_world w). intros x w0 E T0.
    cbv zeta in E. destruct (evp_fits c (acc ++ x)%list); cbn [negb] in E; [|injection E as _ <-; exact T0].
    rewrite bind_write in E. revert E. generalize (skipn (length acc) (evp_stream P c k iv (acc ++ x)%list)). intros out E.
    pose proof (tame_trans _ _ _ _ T0 (tame_write o dst w0 woff out)) as T1. revert E T1. generalize (write_world o w0 dst woff out). intros w1 E T1.
    destruct (Nat.eqb _ _); cbn [negb] in E; [|injection E as _ <-; exact T1]. destruct (Nat.ltb _ _); [injection E as _ <-; exact T1|].
    apply IH in E. eapply tame_trans; eassumption.
Qed.
Lemma body_tame key r roff w a w' : decrypt_body P o src key dst r roff w = (a, w') -> tame dst w w'.
Proof.
  unfold decrypt_body. destruct (negb _); [intros E; injection E as _ <-; apply tame_refl|]. destruct (is_authenticated _ && _); [intros E; injection E as _ <-; apply tame_refl|].
  rewrite bind_now. unfold io_bind at 1. destruct (crypt_loop _ _ _ _ _ _ _ _ _ _ _ _ _) as [r2 w2] eqn:El. apply loop_tame in El. intros E.
  destruct r2 as [[x|]| |]; injection E as _ <-; exact El.
Qed.
Lemma decrypt_tame key oa w a w' : decrypt_file P o src key dst oa w = (a, w') -> tame dst w w'.
Proof.
  unfold decrypt_file. rewrite bind_read. pose proof (tame_read dst w) as T0. revert T0. generalize (read_bytes o w src 0 1) (read_world w). intros b w0 T0 E.
  destruct b as [|mb [|mb' b]]; try (injection E as _ <-; exact T0). destruct (cipher_find (b2n mb)) as [mode|]; [|injection E as _ <-; exact T0].
  destruct (oa && _); [injection E as _ <-; exact T0|]. rewrite head_eq in E. revert E. generalize (N.to_nat (iv_len mode + auth_tag_len mode)). intros rest E.
  pose proof (tame_trans _ _ _ _ T0 (tame_read dst w0)) as T1. revert E T1. generalize (read_bytes o w0 src 1 rest) (read_world w0). intros h w1 E T1.
  destruct (Nat.eq_dec (length h) rest) as [L|L]; [|rewrite head_step_short in E by exact L; injection E as _ <-; exact T1].
  destruct (cipher_result_from_buffer (buffer_create (mb :: h))) as [cr| |] eqn:Ec.
  - rewrite (head_step_full P o src dst key mb rest h w1 cr L Ec) in E. apply body_tame in E. eapply tame_trans; eassumption.
  - unfold head_step in E. apply Nat.eqb_eq in L. rewrite L, Ec in E. injection E as _ <-. exact T1.
  - unfold head_step in E. apply Nat.eqb_eq in L. rewrite L, Ec in E. injection E as _ <-. exact T1.
Qed.
Lemma encrypt_tame key w a w' : encrypt_file P o src key dst w = (a, w') -> tame dst w w'.
Proof.
  unfold encrypt_file. cbv zeta. rewrite bind_rand, draw_cases. pose proof (tame_rand dst w (S (w_rand w))) as T0. revert T0. generalize (rand_world w (S (w_rand w))). intros w0 T0.
  destruct (cipher_result_create _ _ _ _) as [r1|] eqn:Ec; [|cbn [cipher_result_serialize]; intros E; injection E as _ <-; exact T0].
  destruct (cipher_result_serialize (Some r1)) as [h|]; [|intros E; injection E as _ <-; exact T0]. rewrite bind_write.
  pose proof (tame_trans _ _ _ _ T0 (tame_write o dst w0 0 h)) as T1. revert T1. generalize (write_world o w0 dst 0 h). intros w1 T1.
  destruct (negb _); [intros E; injection E as _ <-; exact T1|]. destruct (negb _); [intros E; injection E as _ <-; exact T1|].
  rewrite bind_now. unfold io_bind at 1. destruct (crypt_loop _ _ _ _ _ _ _ _ _ _ _ _ _) as [r2 w2] eqn:El. apply loop_tame in El.
  pose proof (tame_trans _ _ _ _ T1 El) as T2. destruct r2 as [[x|]| |]; [|intros E; injection E as _ <-; exact T2|intros E; injection E as _ <-; exact T2|intros E; injection E as _ <-; exact T2].
  destruct (cipher_result_serialize _) as [again|]; [|intros E; injection E as _ <-; exact T2].
  rewrite bind_write. intros E. injection E as _ <-. eapply tame_trans; [exact T2|apply tame_write].
Qed.
End Tame.

(* ---- the operation on paths ---- *)
(* g is f except for the temporary name and file *)
Definition agrees (t : bytes) (dst : nat) (f g : fs) : Prop :=
  (forall p, p <> t -> fs_names g p = fs_names f p) /\ (forall j, j <> dst -> fs_data g j = fs_data f j).
(* ... and the destination may name the temporary file *)
Definition moved (t d : bytes) (dst : nat) (c : bytes) (f g : fs) : Prop :=
  (forall p, p <> t -> p <> d -> fs_names g p = fs_names f p) /\ (forall j, j <> dst -> fs_data g j = fs_data f j) /\
  fs_names g d = Some dst /\ fs_data g dst = c.
Lemma agrees_refl t i f : agrees t i f f.
Proof. split; auto. Qed.
Lemma agrees_touches t i f g h : agrees t i f g -> touches i g h -> agrees t i f h.
Proof. intros [A B] (N1 & _ & D). split; [intros p Hp; rewrite N1; apply A; exact Hp|intros j J; rewrite D by exact J; apply B; exact J]. Qed.
Lemma temp_neq d : d <> temp_path d.
Proof. unfold temp_path. intros E. apply (f_equal (@length byte)) in E. rewrite app_length in E. cbn [length] in E. lia. Qed.

Lemma seen_cons w n g h : seen w h -> forall w', w_log w' = (n, g) :: w_log w -> seen w' h.
Proof. intros (a & b & c & I & L & E) w' Hw. exists a, b, c. rewrite Hw. split; [right; exact I|auto]. Qed.
Lemma seen_fs w f h : seen (fs_world w f) h -> h = f \/ seen w h.
Proof. intros (a & b & c & [I|I] & L & E); [injection I as <- <-; left; exact E|right; exists a, b, c; auto]. Qed.
Lemma seen_tame i w w' h : tame i w w' -> seen w' h -> seen w h \/ touches i (w_fs w) h.
Proof.
  intros [_ (es & El & F)] (a & b & c & I & L & E). rewrite El in I. apply in_app_or in I. destruct I as [I|I].
  - right. rewrite Forall_forall in F. apply F with (k := c) in I. rewrite E. exact I.
  - left. exists a, b, c. auto.
Qed.

Section Operation.
Context (o : os).
Lemma create_spec s d f n r w : create_operation o s d (start f n) = (r, w) ->
  (r = Val None /\ w = start f n /\ (os_open_source o = true \/ os_open_temp o = true \/ fs_names f s = None)) \/
  (exists src dst, r = Val (Some (src, dst)) /\ fs_names f s = Some src /\
    (fs_names f (temp_path d) = Some dst \/ fs_names f (temp_path d) = None /\ dst = fs_next f) /\
    agrees (temp_path d) dst f (w_fs w) /\ fs_names (w_fs w) (temp_path d) = Some dst /\ fs_data (w_fs w) dst = [] /\ w_rand w = n /\
    (forall g, seen w g -> agrees (temp_path d) dst f g)).
Proof.
  assert (S0 : forall g, seen (start f n) g -> g = f).
  { intros g (a & b & c & [I|[]] & L & E). injection I as <- <-. exact E. }
  unfold create_operation, fopen_rb, io_bind at 1. cbn [start w_fs]. fold (start f n). destruct (os_open_source o) eqn:Eo; [intros E; injection E as <- <-; left; auto|].
  destruct (fs_names f s) as [src|] eqn:Es; [|intros E; injection E as <- <-; left; auto]. unfold fopen_wb.
  destruct (os_open_temp o) eqn:Et; [intros E; injection E as <- <-; left; auto|]. intros E. right.
  unfold io_bind at 1 in E. rewrite bind_now in E. cbn [start w_fs] in E. fold (start f n) in E. destruct (fs_names f (temp_path d)) as [i|] eqn:Ei.
  - rewrite bind_become in E. injection E as <- <-. exists src, i. split; [reflexivity|]. split; [reflexivity|]. split; [left; reflexivity|].
    assert (A : agrees (temp_path d) i f (set_data f i [])) by (eapply agrees_touches; [apply agrees_refl|apply touches_set]).
    split; [exact A|]. split; [exact Ei|]. split; [apply data_set|]. split; [reflexivity|].
    intros g Hg. apply seen_fs in Hg. destruct Hg as [->|Hg]; [exact A|rewrite (S0 g Hg); apply agrees_refl].
  - rewrite bind_become in E. injection E as <- <-. exists src, (fs_next f). split; [reflexivity|]. split; [reflexivity|]. split; [right; auto|].
    match goal with |- agrees _ _ _ (w_fs (fs_world _ ?h)) /\ _ => assert (A : agrees (temp_path d) (fs_next f) f h) end.
    { split; cbn [fs_names fs_data].
      - intros p Hp. apply beqb_false in Hp. rewrite Hp. reflexivity.
      - intros j J. apply Nat.eqb_neq in J. rewrite J. reflexivity. }
    split; [exact A|]. cbn [fs_world w_fs fs_names fs_data]. rewrite beqb_refl, Nat.eqb_refl. split; [reflexivity|]. split; [reflexivity|]. split; [reflexivity|].
    intros g Hg. apply seen_fs in Hg. destruct Hg as [->|Hg]; [exact A|rewrite (S0 g Hg); apply agrees_refl].
Qed.

(* closing the output *)
Definition closed (w : world) (dst : nat) : bytes := match os_close o with Some c => c | None => fs_data (w_fs w) dst end.
Lemma close_spec i w : exists w', fclose_out o i w = (Val tt, w') /\ tame i w w' /\ fs_data (w_fs w') i = closed w i.
Proof.
  unfold fclose_out, closed. destruct (os_close o) as [c|].
  - rewrite bind_now. eexists. split; [reflexivity|]. split; [apply (tame_fs i w); apply touches_set|apply data_set].
  - exists w. split; [reflexivity|]. split; [apply tame_refl|reflexivity].
Qed.
Lemma remove_spec p w : exists w', fremove o p w = (Val tt, w') /\
  ((os_remove o = true /\ w' = w) \/ (os_remove o = false /\ w' = fs_world w (set_name (w_fs w) p None))).
Proof. unfold fremove. destruct (os_remove o); [exists w; auto|]. eexists. split; [reflexivity|]. right. auto. Qed.
Lemma agrees_name t i f g x : agrees t i f g -> agrees t i f (set_name g t x).
Proof. intros [A B]. split; [|exact B]. intros p Hp. unfold set_name. cbn [fs_names]. pose proof Hp as Hq. apply beqb_false in Hp. rewrite Hp. apply A. exact Hq. Qed.
Lemma moved_name t d i c f g x : d <> t -> moved t d i c f g -> moved t d i c f (set_name g t x).
Proof.
  intros Hd (A & B & C & D). split; [|split; [exact B|split; [|exact D]]].
  - intros p Hp Hpd. unfold set_name. cbn [fs_names]. pose proof Hp as Hq. apply beqb_false in Hp. rewrite Hp. apply A; assumption.
  - unfold set_name. cbn [fs_names]. apply beqb_false in Hd. rewrite Hd. exact C.
Qed.
Lemma set_name_here f p x : fs_names (set_name f p x) p = x.
Proof. unfold set_name. cbn [fs_names]. rewrite beqb_refl. reflexivity. Qed.

(* what the operation leaves, given what its body did *)
Lemma run_spec s d body f n r w : run_operation o s d body (start f n) = (r, w) ->
  (forall src dst w r w', body src dst w = (r, w') -> tame dst w w') ->
  (r = Val false /\ w = start f n /\ (os_open_source o = true \/ os_open_temp o = true \/ fs_names f s = None)) \/
  exists src dst w1 w2 rb, fs_names f s = Some src /\
    (fs_names f (temp_path d) = Some dst \/ fs_names f (temp_path d) = None /\ dst = fs_next f) /\
    agrees (temp_path d) dst f (w_fs w1) /\ fs_data (w_fs w1) dst = [] /\ w_rand w1 = n /\
    body src dst w1 = (rb, w2) /\
    match rb with
    | Val true => r = Val (negb (os_rename o)) /\
        (if os_rename o
         then agrees (temp_path d) dst f (w_fs w) /\ (forall g, seen w g -> agrees (temp_path d) dst f g)
         else moved (temp_path d) d dst (closed w2 dst) f (w_fs w) /\
              (forall g, seen w g -> agrees (temp_path d) dst f g \/ moved (temp_path d) d dst (closed w2 dst) f g)) /\
        (os_remove o = false -> fs_names (w_fs w) (temp_path d) = None)
    | Val false => r = Val false /\ agrees (temp_path d) dst f (w_fs w) /\ (forall g, seen w g -> agrees (temp_path d) dst f g) /\
        (os_remove o = false -> fs_names (w_fs w) (temp_path d) = None)
    | Null => r = Null /\ agrees (temp_path d) dst f (w_fs w) /\ (forall g, seen w g -> agrees (temp_path d) dst f g)
    | UB => r = UB /\ agrees (temp_path d) dst f (w_fs w) /\ (forall g, seen w g -> agrees (temp_path d) dst f g)
    end.
Proof.
  intros E HT. unfold run_operation in E. unfold io_bind at 1 in E. destruct (create_operation o s d (start f n)) as [rc w1] eqn:Ec.
  apply create_spec in Ec. destruct Ec as [(-> & -> & H)|(src & dst & -> & Hs & Hd & A1 & N1 & D1 & R1 & S1)]; [injection E as <- <-; left; auto|].
  right. unfold io_bind at 1 in E. destruct (body src dst w1) as [rb w2] eqn:Eb. exists src, dst, w1, w2, rb. pose proof (HT _ _ _ _ _ Eb) as T2.
  split; [exact Hs|]. split; [exact Hd|]. split; [exact A1|]. split; [exact D1|]. split; [exact R1|]. split; [exact Eb|].
  assert (A2 : agrees (temp_path d) dst f (w_fs w2)) by (eapply agrees_touches; [exact A1|apply T2]).
  assert (N2 : fs_names (w_fs w2) (temp_path d) = Some dst) by (destruct T2 as [(H & _) _]; rewrite H; exact N1).
  assert (S2 : forall g, seen w2 g -> agrees (temp_path d) dst f g).
  { intros g Hg. destruct (seen_tame _ _ _ _ T2 Hg) as [H|H]; [apply S1; exact H|eapply agrees_touches; [exact A1|exact H]]. }
  clear Eb T2 S1 A1 N1. pose proof (temp_neq d) as Hdt.
  destruct rb as [[|]| |]; [| |injection E as <- <-; split; [reflexivity|split; assumption]|injection E as <- <-; split; [reflexivity|split; assumption]].
  - unfold move_temp in E. unfold io_bind at 1 in E. unfold io_bind at 1 in E.
    destruct (close_spec dst w2) as (w3 & E3 & T3 & D3). rewrite E3 in E. clear E3.
    assert (A3 : agrees (temp_path d) dst f (w_fs w3)) by (eapply agrees_touches; [exact A2|apply T3]).
    assert (N3 : fs_names (w_fs w3) (temp_path d) = Some dst) by (destruct T3 as [(H & _) _]; rewrite H; exact N2).
    assert (S3 : forall g, seen w3 g -> agrees (temp_path d) dst f g).
    { intros g Hg. destruct (seen_tame _ _ _ _ T3 Hg) as [H|H]; [apply S2; exact H|eapply agrees_touches; [exact A2|exact H]]. }
    clear T3 S2 A2 N2. revert E D3. generalize (closed w2 dst). intros c E D3.
    assert (F : exists w4, frename o (temp_path d) d w3 = (Val (negb (os_rename o)), w4) /\
      if os_rename o then w4 = w3 else moved (temp_path d) d dst c f (w_fs w4) /\
        (forall g, seen w4 g -> agrees (temp_path d) dst f g \/ moved (temp_path d) d dst c f g)).
    { unfold frename. destruct (os_rename o); [exists w3; auto|]. rewrite bind_now, N3.
      destruct (match fs_names (w_fs w3) d with Some j => Nat.eqb dst j | None => false end) eqn:Ej.
      - exists w3. split; [reflexivity|]. split; [|intros g Hg; left; apply S3; exact Hg]. destruct A3 as [A B]. split; [intros p Hp _; apply A; exact Hp|]. split; [exact B|].
        destruct (fs_names (w_fs w3) d) as [j|]; [|discriminate]. apply Nat.eqb_eq in Ej. subst j. auto.
      - rewrite bind_become. eexists. split; [reflexivity|].
        assert (M : moved (temp_path d) d dst c f (set_name (set_name (w_fs w3) d (Some dst)) (temp_path d) None)).
        { apply moved_name; [exact Hdt|]. destruct A3 as [A B]. split; [|split; [exact B|split; [apply set_name_here|exact D3]]].
          intros p Hp Hpd. unfold set_name. cbn [fs_names]. apply beqb_false in Hpd. rewrite Hpd. apply A. exact Hp. }
        split; [exact M|]. intros g Hg. apply seen_fs in Hg. destruct Hg as [->|Hg]; [right; exact M|left; apply S3; exact Hg]. }
    destruct F as (w4 & E4 & F). rewrite E4 in E. unfold io_bind at 1 in E. unfold free_operation in E. unfold io_bind at 1 in E.
    destruct (remove_spec (temp_path d) w4) as (w5 & E5 & R5). rewrite E5 in E. injection E as <- <-. clear E4 E5. split; [reflexivity|]. split.
    + destruct (os_rename o).
      * subst w4. destruct R5 as [(_ & ->)|(_ & ->)]; [split; assumption|]. cbn [fs_world w_fs]. split; [apply agrees_name; exact A3|].
        intros g Hg. apply seen_fs in Hg. destruct Hg as [->|Hg]; [apply agrees_name; exact A3|apply S3; exact Hg].
      * destruct F as [M F]. destruct R5 as [(_ & ->)|(_ & ->)]; [split; assumption|]. cbn [fs_world w_fs]. split; [apply moved_name; assumption|].
        intros g Hg. apply seen_fs in Hg. destruct Hg as [->|Hg]; [right; apply moved_name; assumption|apply F; exact Hg].
    + intros Hr. destruct R5 as [(H & _)|(_ & ->)]; [congruence|]. apply set_name_here.
  - unfold free_operation in E. unfold io_bind at 1 in E. unfold io_bind at 1 in E. destruct (remove_spec (temp_path d) w2) as (w3 & E3 & R3). rewrite E3 in E. clear E3.
    destruct (close_spec dst w3) as (w4 & E4 & T4 & _). rewrite E4 in E. injection E as <- <-. clear E4. split; [reflexivity|].
    assert (A3 : agrees (temp_path d) dst f (w_fs w3)) by (destruct R3 as [(_ & ->)|(_ & ->)]; [exact A2|apply agrees_name; exact A2]).
    assert (S3 : forall g, seen w3 g -> agrees (temp_path d) dst f g).
    { destruct R3 as [(_ & ->)|(_ & ->)]; [exact S2|]. intros g Hg. apply seen_fs in Hg. destruct Hg as [->|Hg]; [apply agrees_name; exact A2|apply S2; exact Hg]. }
    split; [eapply agrees_touches; [exact A3|apply T4]|]. split.
    + intros g Hg. destruct (seen_tame _ _ _ _ T4 Hg) as [H|H]; [apply S3; exact H|eapply agrees_touches; [exact A3|exact H]].
    + intros Hr. destruct R3 as [(H & _)|(_ & ->)]; [congruence|]. destruct T4 as [(H & _) _]. rewrite H. apply set_name_here.
Qed.
End Operation.
