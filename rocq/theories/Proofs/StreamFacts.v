From Coq Require Import ZifyBool ZifyNat ZifyN Sorted.
From Verif.Base Require Import Bytes Monad.
From Verif.Model Require Import Buffer Cipher Ecdsa Prims Engine Proto Stream.
From Verif.Spec Require Import BufferSpec CodecSpec EngineSpec StreamSpec.
From Verif.Proofs Require Import BytesFacts BufferFacts BufferProps CodecFacts EngineFacts ProtoFacts IdentityFacts.
Ltac Zify.zify_post_hook ::= Z.div_mod_to_equations.
Local Open Scope N_scope.

Lemma hmac_some P d k x : hmac_ok P -> hmac_create P (Some x) (Some k) d = Some (p_hmac P d k x).
Proof. intros H. unfold hmac_create. cbv zeta. rewrite (H d k x), N.eqb_refl. reflexivity. Qed.
Lemma hmac_some_inv P d k x y : hmac_create P (Some x) (Some k) d = Some y -> y = p_hmac P d k x.
Proof. unfold hmac_create. cbv zeta. destruct (negb _); [discriminate|]. intros H. apply Some_inj in H. congruence. Qed.
Lemma slice_0 {A} (l : list A) n : slice l 0 n = firstn n l.
Proof. reflexivity. Qed.
Lemma slice_end {A} (l : list A) a n : length l = (a + n)%nat -> slice l a n = skipn a l.
Proof. intros H. unfold slice. apply firstn_all2. rewrite skipn_length. lia. Qed.

Definition material (k : stream_key) : bytes * bytes := (ck_data (sk_cipher k), sk_evo k).
Lemma evolve_turn_ok P k : hmac_ok P -> good_stream_key k ->
  exists k', evolve_turn P k = Some k' /\ good_stream_key k' /\ sk_ppe k' = sk_ppe k /\ material k' = evolved P (material k) /\ sk_user k' = None.
Proof.
  intros H (A & B & C & D & E). unfold evolve_turn. rewrite hmac_some by exact H.
  set (h := p_hmac P SHA512 (sk_evo k) (ck_data (sk_cipher k))). assert (L : blen h = 64) by apply H.
  assert (L' : length h = 64%nat) by (unfold blen in L; lia).
  unfold stream_key_create_with_evo_buffer, buffer_copy_section. change (digest_size SHA512 / 2) with 32.
  unfold section_ok. rewrite L. change (_ && _) with true at 1. change ((0 <? 32) && (32 <? MAX_BUFFER_SIZE) && (32 + 32 <=? MAX_BUFFER_SIZE) && (32 + 32 <=? 64)) with true.
  change (N.to_nat 0) with 0%nat. change (N.to_nat 32) with 32%nat. rewrite slice_0, (slice_end h 32 32) by exact L'.
  unfold cipher_key_create. rewrite A. replace (blen (firstn 32 h) =? key_len AES256_GCM) with true.
  2:{ unfold blen. rewrite firstn_length, L'. reflexivity. }
  cbn [negb]. unfold stream_key_create, stream_key_create_user_data.
  replace (_ || _) with false by (unfold PACKET_PER_EVO_MIN, PACKET_PER_EVO_MAX; lia).
  eexists. split; [reflexivity|]. split; [|split; [reflexivity|split; reflexivity]].
  split; [reflexivity|]. split; [unfold good_key; cbn [sk_cipher ck_data]; rewrite firstn_length, L'; reflexivity|].
  cbn [sk_evo sk_ppe sk_user]. split; [unfold within_limit, library_limit, blen; rewrite skipn_length, L'; lia|]. split; [exact D|discriminate].
Qed.
Lemma evolve_loop_ok P n k : hmac_ok P -> good_stream_key k ->
  exists k', evolve_loop P n k = Some k' /\ good_stream_key k' /\ sk_ppe k' = sk_ppe k /\ material k' = N.iter n (evolved P) (material k).
Proof.
  intros H G. unfold evolve_loop. induction n as [|n IH] using N.peano_ind.
  - exists k. split; [reflexivity|]. auto.
  - destruct IH as (k1 & E1 & G1 & P1 & M1). rewrite !N.iter_succ, E1.
    destruct (evolve_turn_ok P k1 H G1) as (k2 & E2 & G2 & P2 & M2 & _). exists k2. split; [exact E2|]. split; [exact G2|].
    split; [congruence|]. rewrite M2, M1. reflexivity.
Qed.
Lemma stream_key_copy_ok k : good_stream_key k -> stream_key_copy (Some k) = Some k.
Proof.
  intros (A & B & C & D & E). unfold stream_key_copy. rewrite (key_copy_ok _ B), (copy_limit _ C).
  assert (U : forall u, sk_user k = Some u -> buffer_copy (Some u) = Some u) by (intros u Hu; apply copy_limit, E, Hu).
  destruct k as [c e p [u|]]; cbn [sk_cipher sk_evo sk_ppe sk_user] in *.
  - rewrite (U u eq_refl). unfold stream_key_create_user_data. replace (_ || _) with false by (unfold PACKET_PER_EVO_MIN, PACKET_PER_EVO_MAX; lia). reflexivity.
  - cbn [buffer_copy]. unfold stream_key_create_user_data. replace (_ || _) with false by (unfold PACKET_PER_EVO_MIN, PACKET_PER_EVO_MAX; lia). reflexivity.
Qed.

(* --- the invariant of a context that started with key k0 *)
Record inv (P : prims) (k0 : stream_key) (c : stream_ctx) : Prop := {
  inv_good : good_stream_key (sc_key c);
  inv_ppe : sk_ppe (sc_key c) = sk_ppe k0;
  inv_keys : material (sc_key c) = keys_after P k0 (sc_last c / sk_ppe k0) }.
Lemma evolve_ok P k0 c n : hmac_ok P -> inv P k0 c -> sc_last c <= n ->
  exists k, evolve_key_material P c n = Some k /\ good_stream_key k /\ sk_ppe k = sk_ppe k0 /\ material k = keys_after P k0 (n / sk_ppe k0) /\
    (sk_user k = sk_user (sc_key c) \/ sk_user k = None).
Proof.
  intros H [G E K] L. unfold evolve_key_material. cbv zeta. rewrite E. assert (Z : sk_ppe k0 <> 0) by (rewrite <- E; destruct G as (_ & _ & _ & D & _); lia).
  assert (LE : sc_last c / sk_ppe k0 <= n / sk_ppe k0) by (apply N.div_le_mono; assumption).
  replace (n / sk_ppe k0 <? sc_last c / sk_ppe k0) with false by lia.
  destruct (N.eqb_spec (n / sk_ppe k0) (sc_last c / sk_ppe k0)) as [Q|Q].
  - exists (sc_key c). rewrite Q. split; [reflexivity|]. split; [exact G|]. split; [exact E|]. split; [exact K|left; reflexivity].
  - rewrite stream_key_copy_ok by exact G. destruct (evolve_loop_ok P (n / sk_ppe k0 - sc_last c / sk_ppe k0) _ H G) as (k & E1 & G1 & P1 & M1).
    exists k. split; [exact E1|]. split; [exact G1|]. split; [congruence|]. split.
    + rewrite M1, K. unfold keys_after. rewrite <- N.iter_add. f_equal. lia.
    + right. replace (n / sk_ppe k0 - sc_last c / sk_ppe k0) with (N.succ (n / sk_ppe k0 - sc_last c / sk_ppe k0 - 1)) in E1 by lia.
      unfold evolve_loop in E1. rewrite N.iter_succ in E1. fold (evolve_loop P (n / sk_ppe k0 - sc_last c / sk_ppe k0 - 1) (sc_key c)) in E1.
      destruct (evolve_loop_ok P (n / sk_ppe k0 - sc_last c / sk_ppe k0 - 1) _ H G) as (k' & E2 & G2 & _). rewrite E2 in E1.
      destruct (evolve_turn_ok P k' H G2) as (k'' & E3 & _ & _ & _ & U). congruence.
Qed.
Lemma good_cipher k b : good_stream_key k -> fst (material k) = b -> sk_cipher k = gcm_key b.
Proof. intros (A & _) <-. unfold material, gcm_key. cbn [fst]. destruct (sk_cipher k) as [cc dd]. cbn [ck_cipher ck_data] in *. subst. reflexivity. Qed.

(* one call *)
Lemma encode_cases P k0 c d a n : hmac_ok P -> inv P k0 c ->
  stream_ctx_encode P c d a n = (Null, c) \/
  exists pt gen, d = Some pt /\ sc_dir c = ENCODE /\ sc_iv c = Some gen /\ sc_last c < n /\
    exists k, evolve_key_material P c n = Some k /\ good_stream_key k /\ sk_ppe k = sk_ppe k0 /\ material k = keys_after P k0 (n / sk_ppe k0) /\
    sk_cipher k = packet_key P k0 n /\
    stream_ctx_encode P c d a n =
      (fst (aes256_encrypt P (Some pt) a (Some (packet_key P k0 n))
              (Some (firstn (N.to_nat (iv_len (si_cipher gen))) (p_hmac P SHA512 (si_seed gen) (le_enc 8 (si_count gen))))) 0%nat),
       {| sc_key := k; sc_last := n; sc_dir := ENCODE;
          sc_iv := Some {| si_cipher := si_cipher gen; si_seed := si_seed gen; si_count := wadd64 (si_count gen) 1 |}; sc_refs := sc_refs c |}).
Proof.
  intros H I. unfold stream_ctx_encode. destruct d as [pt|]; [|left; reflexivity].
  destruct (N.leb_spec n (sc_last c)) as [L|L]; [left; reflexivity|]. cbn [orb].
  destruct (sc_dir c) eqn:D; cbn [direction_eqb negb]; [|left; reflexivity].
  destruct (sc_iv c) as [gen|] eqn:V; [|left; reflexivity]. right. exists pt, gen. repeat split; try reflexivity; try assumption.
  destruct (evolve_ok P k0 c n H I ltac:(lia)) as (k & E & G & Q & M & _). exists k.
  assert (PK : sk_cipher k = packet_key P k0 n) by (apply good_cipher; [exact G|rewrite M; reflexivity]).
  split; [exact E|]. split; [exact G|]. split; [exact Q|]. split; [exact M|]. split; [exact PK|].
  unfold stream_iv_generate. rewrite hmac_some by exact H. cbv zeta. rewrite E, PK. reflexivity.
Qed.
Lemma decode_cases P k0 c d a n : hmac_ok P -> inv P k0 c ->
  stream_ctx_decode P c d a n = (Null, c) \/
  exists r, d = Some r /\ sc_dir c = DECODE /\ sc_last c < n /\
    exists k, evolve_key_material P c n = Some k /\ good_stream_key k /\ sk_ppe k = sk_ppe k0 /\ material k = keys_after P k0 (n / sk_ppe k0) /\
    stream_ctx_decode P c d a n =
      (aes256_decrypt P (Some r) a (Some (packet_key P k0 n)) true,
       {| sc_key := k; sc_last := n; sc_dir := DECODE; sc_iv := sc_iv c; sc_refs := sc_refs c |}).
Proof.
  intros H I. unfold stream_ctx_decode. destruct d as [r|]; [|left; reflexivity].
  destruct (N.leb_spec n (sc_last c)) as [L|L]; [left; reflexivity|]. cbn [orb].
  destruct (sc_dir c) eqn:D; cbn [direction_eqb negb]; [left; reflexivity|].
  right. exists r. repeat split; try reflexivity; try assumption.
  destruct (evolve_ok P k0 c n H I ltac:(lia)) as (k & E & G & Q & M & _). exists k.
  assert (PK : sk_cipher k = packet_key P k0 n) by (apply good_cipher; [exact G|rewrite M; reflexivity]).
  split; [exact E|]. split; [exact G|]. split; [exact Q|]. split; [exact M|]. rewrite E, PK. reflexivity.
Qed.
Lemma inv_set P k0 k n d v r : good_stream_key k -> sk_ppe k = sk_ppe k0 -> material k = keys_after P k0 (n / sk_ppe k0) ->
  inv P k0 {| sc_key := k; sc_last := n; sc_dir := d; sc_iv := v; sc_refs := r |}.
Proof. intros A B C. split; cbn [sc_key sc_last]; assumption. Qed.
Lemma iv_copy_ok g g' : stream_iv_copy (Some g) = Some g' -> g' = g.
Proof.
  unfold stream_iv_copy. destruct (buffer_copy (Some (si_seed g))) as [s|] eqn:E; [|discriminate]. apply buffer_copy_Some in E. destruct E as [E _].
  apply Some_inj in E. subst s. intros H. apply Some_inj in H. subst g'. destruct g; reflexivity.
Qed.
Lemma ctx_copy_ok c c' : good_stream_key (sc_key c) -> stream_ctx_copy (Some c) = Some c' ->
  c' = {| sc_key := sc_key c; sc_last := sc_last c; sc_dir := sc_dir c; sc_iv := sc_iv c'; sc_refs := 1 |} /\
  (sc_dir c = ENCODE -> sc_iv c' = sc_iv c) /\ (sc_iv c = None -> sc_iv c' = None).
Proof.
  intros G. unfold stream_ctx_copy. rewrite stream_key_copy_ok by exact G. cbv zeta.
  destruct (sc_iv c) as [g|] eqn:V.
  - destruct (stream_iv_copy (Some g)) as [g'|] eqn:E.
    + apply iv_copy_ok in E. subst g'. intros H. apply Some_inj in H. subst c'. cbn [sc_iv]. repeat split; discriminate.
    + destruct (direction_eqb (sc_dir c) ENCODE) eqn:D; [discriminate|]. intros H. apply Some_inj in H. subst c'. cbn [sc_iv]. split; [reflexivity|]. split; [|reflexivity].
      intros Q. rewrite Q in D. discriminate.
  - cbn [stream_iv_copy]. destruct (direction_eqb (sc_dir c) ENCODE) eqn:D; [discriminate|]. intros H. apply Some_inj in H. subst c'. repeat split; reflexivity.
Qed.
Lemma step_inv P k0 o c : hmac_ok P -> inv P k0 c ->
  inv P k0 (snd (stream_step P o c)) /\ sc_last c <= sc_last (snd (stream_step P o c)) /\
  forall n, In n (accepted (fst (stream_step P o c))) -> sc_last c < n /\ n = sc_last (snd (stream_step P o c)).
Proof.
  intros H I. destruct o as [d a n|d a n|]; cbn [stream_step].
  - destruct (encode_cases P k0 c d a n H I) as [E|(pt & g & _ & _ & _ & L & k & _ & G & Q & M & _ & E)]; rewrite E; cbn [fst snd].
    + split; [exact I|]. split; [lia|]. cbn [accepted]. intros m [].
    + split; [apply inv_set; assumption|]. cbn [sc_last]. split; [lia|]. intros m Hm. destruct (fst _); cbn [accepted In] in Hm; [destruct Hm as [<-|[]]|contradiction|contradiction]. auto.
  - destruct (decode_cases P k0 c d a n H I) as [E|(r & _ & _ & L & k & _ & G & Q & M & E)]; rewrite E; cbn [fst snd].
    + split; [exact I|]. split; [lia|]. cbn [accepted]. intros m [].
    + split; [apply inv_set; assumption|]. cbn [sc_last]. split; [lia|]. intros m Hm.
      destruct (aes256_decrypt P _ _ _ _); cbn [accepted In] in Hm; [destruct Hm as [<-|[]]|contradiction|contradiction]. auto.
  - cbn [fst snd accepted]. destruct (stream_ctx_copy (Some c)) as [c'|] eqn:E.
    + apply ctx_copy_ok in E; [|apply I]. destruct E as [E _]. rewrite E. destruct I as [A B C].
      split; [apply inv_set; assumption|]. cbn [sc_last]. split; [lia|]. intros m [].
    + split; [exact I|]. split; [lia|]. intros m [].
Qed.
Lemma run_cons P c o ops : stream_run P c (o :: ops) =
  (fst (stream_step P o c) :: fst (stream_run P (snd (stream_step P o c)) ops), snd (stream_run P (snd (stream_step P o c)) ops)).
Proof. cbn [stream_run]. destruct (stream_step P o c) as [a c']. cbn [fst snd]. destruct (stream_run P c' ops). reflexivity. Qed.
Lemma run_inv P k0 ops : hmac_ok P -> forall c, inv P k0 c ->
  inv P k0 (snd (stream_run P c ops)) /\ sc_last c <= sc_last (snd (stream_run P c ops)) /\
  increasing (flat_map accepted (fst (stream_run P c ops))) /\
  forall n, In n (flat_map accepted (fst (stream_run P c ops))) -> sc_last c < n <= sc_last (snd (stream_run P c ops)).
Proof.
  intros H. induction ops as [|o ops IH]; intros c I.
  - cbn [stream_run fst snd flat_map]. split; [exact I|]. split; [lia|]. split; [constructor|intros n []].
  - rewrite run_cons. cbn [fst snd]. destruct (step_inv P k0 o c H I) as (I1 & L1 & A1). destruct (IH _ I1) as (I2 & L2 & S2 & A2).
    split; [exact I2|]. split; [lia|]. cbn [flat_map]. split.
    + destruct (accepted _) as [|n [|m t]] eqn:E; [exact S2| |].
      * cbn [app]. constructor; [exact S2|]. apply Forall_forall. intros m Hm. destruct (A1 n) as [_ En]; [left; reflexivity|]. apply A2 in Hm. lia.
      * exfalso. destruct (fst (stream_step P o c)) as [? []|? []|]; discriminate.
    + intros n Hn. apply in_app_or in Hn. destruct Hn as [Hn|Hn]; [apply A1 in Hn|apply A2 in Hn]; lia.
Qed.
Lemma create_inv P k d s c s' : good_stream_key k -> stream_ctx_create P (Some k) d s = (Val c, s') ->
  inv P k c /\ sc_last c = 0 /\ sc_dir c = d /\ sc_refs c = 1 /\ sc_key c = k /\
  match d with ENCODE => exists seed, p_rand P s 64 = Some seed /\ sc_iv c = Some {| si_cipher := AES256_GCM; si_seed := seed; si_count := 0 |} | DECODE => sc_iv c = None end.
Proof.
  intros G H. unfold stream_ctx_create in H. assert (G' := G). destruct G' as (A & _). rewrite A in H. cbn [is_authenticated negb] in H.
  assert (Q : inv P k {| sc_key := k; sc_last := 0; sc_dir := d; sc_iv := None; sc_refs := 1 |}).
  { apply inv_set; [exact G|reflexivity|]. replace (0 / sk_ppe k) with 0 by (symmetry; apply N.div_0_l; destruct G as (_ & _ & _ & D & _); lia). reflexivity. }
  apply mbind_Val in H. destruct H as (iv & s1 & Hi & H). apply pair_equal_spec in H. destruct H as [H _]. apply Val_inj in H. subst c.
  split; [destruct Q as [Q1 Q2 Q3]; split; assumption|]. cbn [sc_last sc_dir sc_refs sc_key sc_iv]. repeat (split; [reflexivity|]).
  destruct d.
  - apply mbind_Val in Hi. destruct Hi as (f & s2 & Hf & Hi). unfold stream_iv_create in Hf. apply mbind_Val in Hf. destruct Hf as (seed & s3 & Hs & Hf).
    apply crypto_random_Val in Hs. destruct Hs as [Hs _]. exists seed. split; [exact Hs|].
    apply pair_equal_spec in Hf. destruct Hf as [Hf _]. apply Val_inj in Hf. apply pair_equal_spec in Hi. destruct Hi as [Hi _]. apply Val_inj in Hi. congruence.
  - apply pair_equal_spec in Hi. destruct Hi as [Hi _]. apply Val_inj in Hi. congruence.
Qed.

(* --- C20 *)
Lemma accepted_increasing P k d s c s' ops : hmac_ok P -> good_stream_key k -> stream_ctx_create P (Some k) d s = (Val c, s') ->
  increasing (flat_map accepted (fst (stream_run P c ops))).
Proof. intros H G C. destruct (create_inv _ _ _ _ _ _ G C) as (I & _). apply (run_inv P k ops H c I). Qed.
(* --- C22 *)
Lemma fst_Val {A} (x : res A * nat) a : fst x = Val a -> exists s, x = (Val a, s).
Proof. destruct x as [r s]. cbn [fst]. intros ->. eauto. Qed.
Lemma encrypt_given P pt aad key v s s1 : snd (aes256_encrypt P (Some pt) aad (Some key) (Some v) s) = s /\
  fst (aes256_encrypt P (Some pt) aad (Some key) (Some v) s) = fst (aes256_encrypt P (Some pt) aad (Some key) (Some v) s1).
Proof.
  unfold aes256_encrypt. destruct (match aad with Some _ => _ | None => _ end); [split; reflexivity|]. destruct (_ || _); [split; reflexivity|].
  unfold mbind, mret, mres. cbv beta iota zeta. destruct (buffer_copy (Some v)) as [x|]; [|split; reflexivity]. destruct (negb _); [split; reflexivity|].
  destruct (blen x <? iv_len (ck_cipher key)); [split; reflexivity|]. destruct (INT_MAX <? blen (obytes aad)); [split; reflexivity|]. destruct (ck_cipher key); split; reflexivity.
Qed.
Lemma encoded_under P k0 c d a n r : hmac_ok P -> inv P k0 c -> fst (stream_ctx_encode P c (Some d) a n) = Val r ->
  aes256_encrypt P (Some d) a (Some (packet_key P k0 n)) (Some (cr_iv r)) 0%nat = (Val r, 0%nat).
Proof.
  intros H I E. destruct (encode_cases P k0 c (Some d) a n H I) as [Q|(pt & g & Ed & _ & _ & L & k & _ & _ & _ & _ & _ & Q)]; rewrite Q in E; cbn [fst] in E; [discriminate|].
  apply Some_inj in Ed. subst pt. set (v := firstn _ _) in E. apply fst_Val in E. destruct E as [s E].
  assert (V : cr_iv r = v) by (apply encrypt_Val in E; apply E). rewrite V.
  destruct (encrypt_given P d a (packet_key P k0 n) v 0%nat 0%nat) as [Z _]. rewrite E in Z. cbn [snd] in Z. rewrite E, Z. reflexivity.
Qed.
Lemma sender_keys P k d s c s' ops : hmac_ok P -> good_stream_key k -> stream_ctx_create P (Some k) d s = (Val c, s') ->
  let c' := snd (stream_run P c ops) in
  material (sc_key c') = keys_after P k (sc_last c' / sk_ppe k) /\ sk_ppe (sc_key c') = sk_ppe k.
Proof.
  intros H G C. destruct (create_inv _ _ _ _ _ _ G C) as (I & _). destruct (run_inv P k ops H c I) as (I' & _). cbv zeta. split; apply I'.
Qed.
Lemma packet_encrypted_under P k s c s' ops d a n r : hmac_ok P -> good_stream_key k -> stream_ctx_create P (Some k) ENCODE s = (Val c, s') ->
  fst (stream_ctx_encode P (snd (stream_run P c ops)) (Some d) a n) = Val r ->
  aes256_encrypt P (Some d) a (Some (packet_key P k n)) (Some (cr_iv r)) 0%nat = (Val r, 0%nat).
Proof. intros H G C. destruct (create_inv _ _ _ _ _ _ G C) as (I & _). destruct (run_inv P k ops H c I) as (I' & _). apply encoded_under; assumption. Qed.
(* --- C21 *)
Lemma decode_genuine P k0 c d a n r : hmac_ok P -> ctr_ok P -> aead_ok P -> inv P k0 c -> sc_dir c = DECODE -> sc_last c < n -> d <> [] ->
  aes256_encrypt P (Some d) a (Some (packet_key P k0 n)) (Some (cr_iv r)) 0%nat = (Val r, 0%nat) ->
  fst (stream_ctx_decode P c (Some r) a n) = Val d.
Proof.
  intros H HC HA I D L NE E. destruct (decode_cases P k0 c (Some r) a n H I) as [Q|(r' & Er & _ & _ & k & _ & _ & _ & _ & Q)].
  - exfalso. unfold stream_ctx_decode in Q. replace (n <=? sc_last c) with false in Q by lia. rewrite D in Q. cbn [orb direction_eqb negb] in Q.
    destruct (evolve_ok P k0 c n H I ltac:(lia)) as (k & E1 & _). rewrite E1 in Q.
    apply pair_equal_spec in Q. destruct Q as [_ Q]. apply (f_equal sc_last) in Q. cbn [sc_last] in Q. lia.
  - apply Some_inj in Er. subst r'. rewrite Q. cbn [fst]. eapply decrypt_encrypt; try eassumption. intros _. reflexivity.
Qed.
Lemma sent_ok P k0 l : hmac_ok P -> forall c, inv P k0 c -> Forall (fun x => snd x <> []) l ->
  Forall (fun p => sc_last c < sp_seq p /\ sp_data p <> [] /\
    aes256_encrypt P (Some (sp_data p)) (sp_aad p) (Some (packet_key P k0 (sp_seq p))) (Some (cr_iv (sp_cipher p))) 0%nat = (Val (sp_cipher p), 0%nat)) (sent P c l) /\
  StronglySorted (fun p q => sp_seq p < sp_seq q) (sent P c l).
Proof.
  intros H. induction l as [|[[n a] d] l IH]; intros c I F; [split; constructor|]. inversion F as [|? ? Fd Fl]. subst. cbn [snd] in Fd.
  cbn [sent]. destruct (step_inv P k0 (Encode (Some d) a n) c H I) as (I1 & L1 & A1). cbn [stream_step] in I1, L1, A1.
  destruct (stream_ctx_encode P c (Some d) a n) as [x c'] eqn:E. cbn [fst snd accepted] in *. destruct (IH c' I1 Fl) as [B1 B2].
  assert (B1' : Forall (fun p => sc_last c < sp_seq p /\ sp_data p <> [] /\
    aes256_encrypt P (Some (sp_data p)) (sp_aad p) (Some (packet_key P k0 (sp_seq p))) (Some (cr_iv (sp_cipher p))) 0%nat = (Val (sp_cipher p), 0%nat)) (sent P c' l)).
  { eapply Forall_impl; [|exact B1]. intros p (Q & R). split; [lia|exact R]. }
  destruct x as [y| |]; [|split; assumption|split; assumption].
  destruct (A1 n) as [X1 X2]; [left; reflexivity|]. split.
  - constructor; [|exact B1']. cbn [sp_seq sp_data sp_aad sp_cipher]. split; [exact X1|]. split; [exact Fd|].
    apply (encoded_under P k0 c d a n y H I). rewrite E. reflexivity.
  - constructor; [exact B2|]. eapply Forall_impl; [|exact B1]. cbn [sp_seq]. intros p (Q & _). lia.
Qed.
Lemma received_ok P k0 l : hmac_ok P -> ctr_ok P -> aead_ok P -> forall c, inv P k0 c -> sc_dir c = DECODE ->
  Forall (fun p => sc_last c < sp_seq p /\ sp_data p <> [] /\
    aes256_encrypt P (Some (sp_data p)) (sp_aad p) (Some (packet_key P k0 (sp_seq p))) (Some (cr_iv (sp_cipher p))) 0%nat = (Val (sp_cipher p), 0%nat)) l ->
  StronglySorted (fun p q => sp_seq p < sp_seq q) l ->
  received P c l = map (fun p => Val (sp_data p)) l.
Proof.
  intros H HC HA. induction l as [|p l IH]; intros c I D F S; [reflexivity|]. inversion F as [|? ? (Q1 & Q2 & Q3) Fl]. subst. inversion S as [|? ? S1 S2]. subst.
  cbn [received map]. assert (V := decode_genuine P k0 c _ _ _ _ H HC HA I D Q1 Q2 Q3).
  destruct (decode_cases P k0 c (Some (sp_cipher p)) (sp_aad p) (sp_seq p) H I) as [E|(r & _ & _ & _ & k & _ & G & Z & M & E)]; rewrite E in *; cbn [fst] in V; [discriminate|].
  rewrite V. apply (f_equal2 (@cons _)); [reflexivity|]. apply IH; [apply inv_set; assumption|reflexivity| |exact S1].
  cbn [sc_last]. apply Forall_forall. intros q Hq. rewrite Forall_forall in Fl, S2. destruct (Fl q Hq) as (_ & R). split; [apply S2, Hq|exact R].
Qed.
Lemma sub_in {A} (l m : list A) : subsequence l m -> forall x, In x l -> In x m.
Proof. induction 1; intros y Hy; [destruct Hy|destruct Hy as [->|Hy]; [left; reflexivity|right; auto]|right; auto]. Qed.
Lemma sub_sorted {A} (R : A -> A -> Prop) l m : subsequence l m -> StronglySorted R m -> StronglySorted R l.
Proof.
  induction 1 as [|x l m S IH|x l m S IH]; intros Q; [constructor| |]; inversion Q as [|? ? Q1 Q2]; subst.
  - constructor; [auto|]. apply Forall_forall. intros y Hy. rewrite Forall_forall in Q2. apply Q2. eapply sub_in; eassumption.
  - auto.
Qed.
Lemma in_step P k s1 c1 s1' s2 c2 s2' msgs delivered : hmac_ok P -> ctr_ok P -> aead_ok P -> good_stream_key k ->
  stream_ctx_create P (Some k) ENCODE s1 = (Val c1, s1') -> stream_ctx_create P (Some k) DECODE s2 = (Val c2, s2') ->
  Forall (fun x => snd x <> []) msgs -> subsequence delivered (sent P c1 msgs) ->
  received P c2 delivered = map (fun p => Val (sp_data p)) delivered.
Proof.
  intros H HC HA G E1 E2 NE S. destruct (create_inv _ _ _ _ _ _ G E1) as (I1 & L1 & _). destruct (create_inv _ _ _ _ _ _ G E2) as (I2 & L2 & D2 & _).
  destruct (sent_ok P k msgs H c1 I1 NE) as [F1 S1]. apply (received_ok P k delivered H HC HA c2 I2 D2).
  - apply Forall_forall. intros p Hp. rewrite Forall_forall in F1. destruct (F1 p (sub_in _ _ S p Hp)) as (Q & R). split; [lia|exact R].
  - exact (sub_sorted _ _ _ S S1).
Qed.
(* and the sender does send: every message with a fresh number and a size the library can hold *)
Lemma encode_succeeds P k0 c gen d a n : hmac_ok P -> aead_ok P -> inv P k0 c -> sc_dir c = ENCODE -> sc_iv c = Some gen -> si_cipher gen = AES256_GCM ->
  sc_last c < n -> blen d < library_limit -> blen (bytes_of a) <= library_limit ->
  exists r, fst (stream_ctx_encode P c (Some d) a n) = Val r.
Proof.
  intros H HA I D V Cg L Ld La. destruct (encode_cases P k0 c (Some d) a n H I) as [E|(pt & g & Ed & _ & Eg & _ & k & _ & G & _ & _ & PK & E)].
  - exfalso. unfold stream_ctx_encode in E. replace (n <=? sc_last c) with false in E by lia. rewrite D, V in E. cbn [orb direction_eqb negb] in E.
    unfold stream_iv_generate in E. rewrite hmac_some in E by exact H. cbv zeta in E.
    destruct (evolve_ok P k0 c n H I ltac:(lia)) as (k & E1 & _). rewrite E1 in E.
    apply pair_equal_spec in E. destruct E as [_ E]. apply (f_equal sc_last) in E. cbn [sc_last] in E. lia.
  - apply Some_inj in Ed. subst pt. rewrite V in Eg. apply Some_inj in Eg. subst g. rewrite E. cbn [fst].
    destruct (encrypt_succeeds P d a (packet_key P k0 n) (Some (firstn (N.to_nat (iv_len (si_cipher gen))) (p_hmac P SHA512 (si_seed gen) (le_enc 8 (si_count gen))))) 0%nat HA) as (r & s' & Q).
    + rewrite <- PK. apply G.
    + exact Ld.
    + reflexivity.
    + exact La.
    + rewrite Cg. change (iv_len (ck_cipher (packet_key P k0 n))) with 12. change (N.to_nat (iv_len AES256_GCM)) with 12%nat.
      unfold blen. rewrite firstn_length. pose proof (H SHA512 (si_seed gen) (le_enc 8 (si_count gen))) as Hl. unfold blen in Hl. change (digest_size SHA512) with 64 in Hl. lia.
    + rewrite Q. cbn [fst]. eauto.
Qed.
(* --- C25: whatever was presented before, a genuine packet with a larger number decodes *)
Lemma genuine_after_anything P k s1 c1 s1' s2 c2 s2' pre d a n r ops : hmac_ok P -> ctr_ok P -> aead_ok P -> good_stream_key k ->
  stream_ctx_create P (Some k) ENCODE s1 = (Val c1, s1') -> stream_ctx_create P (Some k) DECODE s2 = (Val c2, s2') ->
  d <> [] -> fst (stream_ctx_encode P (snd (stream_run P c1 pre)) (Some d) a n) = Val r ->
  (forall o, In o ops -> match o with Decode _ _ m => m < n | Encode _ _ _ => True | GoOnWithCopy => True end) -> 0 < n ->
  fst (stream_ctx_decode P (snd (stream_run P c2 ops)) (Some r) a n) = Val d.
Proof.
  intros H HC HA G E1 E2 NE E O Z. assert (Q := packet_encrypted_under _ _ _ _ _ _ _ _ _ _ H G E1 E).
  destruct (create_inv _ _ _ _ _ _ G E2) as (I2 & L2 & D2 & _).
  assert (K : forall ops c, inv P k c -> sc_dir c = DECODE -> sc_last c < n -> (forall o, In o ops -> match o with Decode _ _ m => m < n | _ => True end) ->
    inv P k (snd (stream_run P c ops)) /\ sc_dir (snd (stream_run P c ops)) = DECODE /\ sc_last (snd (stream_run P c ops)) < n).
  { clear - H. induction ops as [|o ops IH]; intros c I D L O; [auto|]. rewrite run_cons. cbn [snd].
    assert (B : inv P k (snd (stream_step P o c)) /\ sc_dir (snd (stream_step P o c)) = DECODE /\ sc_last (snd (stream_step P o c)) < n).
    { split; [apply (step_inv P k o c H I)|]. destruct o as [x y m|x y m|]; cbn [stream_step].
      - destruct (encode_cases P k c x y m H I) as [E|(pt & g & _ & De & _)]; [rewrite E; auto|congruence].
      - destruct (decode_cases P k c x y m H I) as [E|(r & _ & _ & _ & k' & _ & _ & _ & _ & E)]; rewrite E; [auto|]. cbn [snd sc_dir sc_last].
        split; [reflexivity|]. apply (O (Decode x y m)). left. reflexivity.
      - cbn [snd]. destruct (stream_ctx_copy (Some c)) as [c'|] eqn:E; [|auto]. apply ctx_copy_ok in E; [|apply I]. destruct E as [E _]. rewrite E. auto. }
    apply IH; [apply B|apply B|apply B|]. intros o' Ho. apply O. right. exact Ho. }
  destruct (K ops c2 I2 D2 ltac:(lia)) as (A & B & C); [intros o Ho; specialize (O o Ho); destruct o; auto|].
  apply (decode_genuine P k); assumption.
Qed.
Lemma early_reject_harmless P c d a n : (n <= sc_last c \/ d = None) -> stream_ctx_decode P c d a n = (Null, c).
Proof.
  intros [L| ->]; [|reflexivity]. unfold stream_ctx_decode. destruct d; [|reflexivity]. replace (n <=? sc_last c) with true by lia. reflexivity.
Qed.
(* --- C23 *)
Lemma step_gen P k0 o c gen : hmac_ok P -> inv P k0 c -> sc_dir c = ENCODE -> sc_iv c = Some gen -> si_cipher gen = AES256_GCM -> si_count gen + 1 < two64 ->
  exists gen', sc_iv (snd (stream_step P o c)) = Some gen' /\ sc_dir (snd (stream_step P o c)) = ENCODE /\ si_seed gen' = si_seed gen /\ si_cipher gen' = AES256_GCM /\
    si_count gen <= si_count gen' <= si_count gen + 1 /\
    exists l, ivs (fst (stream_step P o c)) = map (iv_of P (si_seed gen)) l /\ Forall (fun x => si_count gen <= x < si_count gen') l /\ increasing l.
Proof.
  intros H I D V C B. destruct o as [d a n|d a n|]; cbn [stream_step].
  - destruct (encode_cases P k0 c d a n H I) as [E|(pt & g & _ & _ & Vg & L & k & _ & G & Q & M & _ & E)]; rewrite E; cbn [fst snd].
    + exists gen. repeat split; try assumption; try lia. exists []. repeat split; constructor.
    + rewrite V in Vg. apply Some_inj in Vg. subst g. cbn [sc_iv sc_dir]. eexists. split; [reflexivity|]. cbn [si_seed si_cipher si_count].
      assert (W : wadd64 (si_count gen) 1 = si_count gen + 1) by (unfold wadd64; apply N.mod_small; exact B). rewrite W.
      repeat split; try assumption; try lia.
      destruct (aes256_encrypt _ _ _ _ _ _) as [r0 s0] eqn:EE. cbn [fst]. destruct r0 as [r0| |]; [|exists []; repeat split; constructor|exists []; repeat split; constructor].
      exists [si_count gen]. split; [|split; [constructor; [lia|constructor]|constructor; constructor]]. cbn [ivs map].
      apply encrypt_Val in EE. destruct EE as (_ & _ & _ & _ & _ & _ & EV & _). rewrite EV, C. reflexivity.
  - destruct (decode_cases P k0 c d a n H I) as [E|(r & _ & Dd & _)]; [|congruence]. rewrite E. cbn [fst snd].
    exists gen. repeat split; try assumption; try lia. exists []. repeat split; constructor.
  - cbn [fst snd ivs]. exists gen. assert (K : sc_iv (match stream_ctx_copy (Some c) with Some c' => c' | None => c end) = Some gen /\ sc_dir (match stream_ctx_copy (Some c) with Some c' => c' | None => c end) = ENCODE).
    { destruct (stream_ctx_copy (Some c)) as [c'|] eqn:E; [|auto]. apply ctx_copy_ok in E; [|apply I]. destruct E as (E & E2 & _). split; [rewrite E2; assumption|rewrite E; exact D]. }
    destruct K. repeat split; try assumption; try lia. exists []. repeat split; constructor.
Qed.
Lemma sorted_app {A} (R : A -> A -> Prop) l m : StronglySorted R l -> StronglySorted R m -> (forall x y, In x l -> In y m -> R x y) -> StronglySorted R (l ++ m).
Proof.
  induction 1 as [|x l S IH F]; intros Q K; [exact Q|]. cbn [app]. constructor; [apply IH; [exact Q|]; intros; apply K; [right|]; assumption|].
  apply Forall_app. split; [exact F|]. apply Forall_forall. intros y Hy. apply K; [left; reflexivity|exact Hy].
Qed.
Lemma run_gen P k0 ops : hmac_ok P -> forall c gen, inv P k0 c -> sc_dir c = ENCODE -> sc_iv c = Some gen -> si_cipher gen = AES256_GCM ->
  si_count gen + N.of_nat (length ops) < two64 ->
  exists l, flat_map ivs (fst (stream_run P c ops)) = map (iv_of P (si_seed gen)) l /\ Forall (fun x => si_count gen <= x < two64) l /\ increasing l.
Proof.
  intros H. induction ops as [|o ops IH]; intros c gen I D V C B.
  - exists []. repeat split; constructor.
  - cbn [length] in B. rewrite run_cons. cbn [fst flat_map].
    destruct (step_gen P k0 o c gen H I D V C ltac:(lia)) as (g & V1 & D1 & S1 & C1 & B1 & l & E1 & F1 & Q1).
    destruct (IH (snd (stream_step P o c)) g) as (m & E2 & F2 & Q2); [apply (step_inv P k0 o c H I)|assumption|assumption|assumption|lia|].
    exists (l ++ m)%list. rewrite E1, E2, S1, map_app. split; [reflexivity|]. rewrite Forall_forall in F1, F2. split.
    + apply Forall_forall. intros x Hx. apply in_app_or in Hx. destruct Hx as [Hx|Hx]; [apply F1 in Hx|apply F2 in Hx]; lia.
    + apply sorted_app; [exact Q1|exact Q2|]. intros x y Hx Hy. apply F1 in Hx. apply F2 in Hy. lia.
Qed.
Lemma iv_counters P k s c s' ops : hmac_ok P -> good_stream_key k -> stream_ctx_create P (Some k) ENCODE s = (Val c, s') -> N.of_nat (length ops) < two64 ->
  exists seed l, p_rand P s 64 = Some seed /\ flat_map ivs (fst (stream_run P c ops)) = map (iv_of P seed) l /\ Forall (fun x => x < two64) l /\ increasing l.
Proof.
  intros H G C B. destruct (create_inv _ _ _ _ _ _ G C) as (I & _ & D & _ & _ & seed & R & V).
  destruct (run_gen P k ops H c _ I D V eq_refl ltac:(cbn [si_count]; lia)) as (l & E & F & Q). exists seed, l. split; [exact R|]. split; [exact E|].
  split; [eapply Forall_impl; [|exact F]; cbv beta; intros x [_ L]; exact L|exact Q].
Qed.
Lemma increasing_nodup l : increasing l -> NoDup l.
Proof.
  induction 1 as [|x l S IH F]; constructor; [|exact IH]. intros Hx. rewrite Forall_forall in F. specialize (F x Hx). lia.
Qed.
Lemma iv_distinct P k s c s' ops seed : hmac_ok P -> good_stream_key k -> stream_ctx_create P (Some k) ENCODE s = (Val c, s') -> N.of_nat (length ops) < two64 ->
  p_rand P s 64 = Some seed ->
  (forall i j, i < two64 -> j < two64 -> i <> j -> In (iv_of P seed i) (flat_map ivs (fst (stream_run P c ops))) -> In (iv_of P seed j) (flat_map ivs (fst (stream_run P c ops))) -> iv_of P seed i <> iv_of P seed j) ->
  NoDup (flat_map ivs (fst (stream_run P c ops))).
Proof.
  intros H G C B R NC. destruct (iv_counters P k s c s' ops H G C B) as (seed' & l & R' & E & F & Q). rewrite R in R'. apply Some_inj in R'. subst seed'.
  rewrite E in *. apply increasing_nodup in Q. clear - NC F Q. assert (K : forall i j, In i l -> In j l -> iv_of P seed i = iv_of P seed j -> i = j).
  { intros i j Hi Hj Eq. rewrite Forall_forall in F. destruct (N.eq_dec i j) as [|Ne]; [assumption|]. exfalso.
    apply (NC i j (F i Hi) (F j Hj) Ne); [apply in_map; exact Hi|apply in_map; exact Hj|exact Eq]. }
  clear NC F. induction Q as [|x l Nx Q IH]; [constructor|]. cbn [map]. constructor.
  - intros Hx. apply in_map_iff in Hx. destruct Hx as (y & Ey & Hy). apply Nx. rewrite (K x y); [exact Hy|left; reflexivity|right; exact Hy|congruence].
  - apply IH. intros i j Hi Hj. apply K; right; assumption.
Qed.
(* --- C24 *)
Lemma copies_agree P c c' d a n : good_stream_key (sc_key c) -> sc_dir c = ENCODE -> stream_ctx_copy (Some c) = Some c' ->
  fst (stream_ctx_encode P c d a n) = fst (stream_ctx_encode P c' d a n) /\ forall r a, fst (stream_ctx_decode P c r a n) = fst (stream_ctx_decode P c' r a n).
Proof.
  intros G D E. apply ctx_copy_ok in E; [|exact G]. destruct E as (E & E2 & _). rewrite (E2 D) in E. rewrite E. destruct c as [k l dd v r].
  unfold stream_ctx_encode, stream_ctx_decode, evolve_key_material. cbn [sc_key sc_last sc_dir sc_iv sc_refs]. split.
  - destruct d as [d|]; [|reflexivity]. destruct (_ || _); [reflexivity|]. destruct v as [v|]; [|reflexivity]. destruct (stream_iv_generate P v) as [iv g].
    destruct iv; [|reflexivity]. destruct (if _ <? _ then _ else _); reflexivity.
  - intros x y. destruct x as [x|]; [|reflexivity]. destruct (_ || _); [reflexivity|]. destruct (if _ <? _ then _ else _); reflexivity.
Qed.
(* the next packet of a context and of its copy: same IV, and the same key if the numbers are in one evolution *)
Lemma copy_reuses P k0 c c' d1 d2 a1 a2 n1 n2 r1 r2 : hmac_ok P -> inv P k0 c -> stream_ctx_copy (Some c) = Some c' ->
  fst (stream_ctx_encode P c (Some d1) a1 n1) = Val r1 -> fst (stream_ctx_encode P c' (Some d2) a2 n2) = Val r2 ->
  n1 / sk_ppe k0 = n2 / sk_ppe k0 -> cr_iv r1 = cr_iv r2 /\ packet_key P k0 n1 = packet_key P k0 n2.
Proof.
  intros H I E E1 E2 En. assert (I' : inv P k0 c').
  { apply ctx_copy_ok in E; [|apply I]. destruct E as [E _]. rewrite E. destruct I as [A B C]. apply inv_set; assumption. }
  destruct (encode_cases P k0 c (Some d1) a1 n1 H I) as [Q|(p1 & g1 & _ & D1 & V1 & _ & k1 & _ & _ & _ & _ & _ & Q1)]; [rewrite Q in E1; discriminate|].
  destruct (encode_cases P k0 c' (Some d2) a2 n2 H I') as [Q|(p2 & g2 & _ & D2 & V2 & _ & k2 & _ & _ & _ & _ & _ & Q2)]; [rewrite Q in E2; discriminate|].
  apply ctx_copy_ok in E; [|apply I]. destruct E as (_ & E & _). rewrite (E D1), V1 in V2. apply Some_inj in V2. subst g2.
  rewrite Q1 in E1. rewrite Q2 in E2. cbn [fst] in E1, E2. apply fst_Val in E1, E2. destruct E1 as [s1 E1], E2 as [s2 E2].
  apply encrypt_Val in E1, E2. split; [|unfold packet_key; rewrite En; reflexivity].
  destruct E1 as (_ & _ & _ & _ & _ & _ & -> & _). destruct E2 as (_ & _ & _ & _ & _ & _ & -> & _). reflexivity.
Qed.
(* --- C26 *)
Definition pb_stream_ok (m : pb_stream_key) : Prop :=
  (forall x, pst_cipher_key m = Some x -> blen x < two32) /\ (forall x, pst_evo m = Some x -> blen x < two32) /\
  (forall x, pst_ppe m = Some x -> x < two32) /\ (forall x, pst_user m = Some x -> blen x < two32).
Lemma pb_stream_roundtrip m : pb_stream_ok m -> pb_stream_key_unpack (pb_stream_key_pack m) = Some m.
Proof.
  intros (A & B & C & D). unfold pb_stream_key_unpack, pb_stream_key_pack.
  rewrite <- (app_nil_r (f_len_opt 4 _)), <- ?app_assoc.
  rewrite !scan_len_opt by (lia || assumption). rewrite scan_var_opt; [|lia|intros x Hx; apply C in Hx; unfold two32, two64 in *; lia].
  rewrite scan_len_opt by (lia || assumption). rewrite scan_nil.
  destruct m as [k e p u]. cbn [pst_cipher_key pst_evo pst_ppe pst_user] in *.
  assert (E : forall x, p = Some x -> u32 x = x) by (intros x H; apply N.mod_small, C, H).
  destruct k, e, p as [p|], u; fields; rewrite ?(E p eq_refl); reflexivity.
Qed.
Lemma key_create_gcm b : length b = 32%nat -> cipher_key_create AES256_GCM (Some b) = Some (gcm_key b).
Proof. intros L. unfold cipher_key_create, blen. rewrite L. reflexivity. Qed.
Lemma stream_key_roundtrip k b : good_stream_key k -> stream_key_serialize (Some k) = Val b -> stream_key_create_from_buffer (Some b) = Val k.
Proof.
  intros (A & B & C & D & E). unfold stream_key_serialize, stream_key_to_proto.
  rewrite (key_serialize_ok _ B). intros H. apply lift_Val' in H. apply pack_buffer_Some in H. destruct H as [-> L].
  unfold stream_key_create_from_buffer. rewrite pb_stream_roundtrip.
  2:{ unfold within_limit, library_limit in *. repeat split; cbn [pst_cipher_key pst_evo pst_ppe pst_user]; intros x Hx.
      - apply Some_inj in Hx. subst x. unfold key_wire. rewrite blen_cons. unfold blen, good_key in *. rewrite B. reflexivity.
      - apply Some_inj in Hx. subst x. unfold two32. lia.
      - apply Some_inj in Hx. subst x. unfold two32. lia.
      - apply E in Hx. unfold two32. lia. }
  cbn [lift rbind]. unfold stream_key_create_from_proto. cbn [pst_cipher_key pst_evo pst_ppe pst_user].
  rewrite create_limit by (unfold key_wire; rewrite blen_cons; unfold within_limit, library_limit, blen, good_key in *; rewrite B; lia). cbn [lift rbind].
  rewrite <- (app_nil_r (key_wire _)), (key_parse_ok _ [] B) by (rewrite blen_nil; unfold library_limit; lia). cbn [rbind]. rewrite (create_limit _ C). cbn [lift rbind].
  destruct k as [c e p [u|]]; cbn [sk_cipher sk_evo sk_ppe sk_user] in *.
  - rewrite (create_limit u) by (apply E; reflexivity). cbn [lift rbind]. unfold stream_key_create_user_data.
    replace (_ || _) with false by (unfold PACKET_PER_EVO_MIN, PACKET_PER_EVO_MAX; lia). reflexivity.
  - cbn [rbind]. unfold stream_key_create_user_data. replace (_ || _) with false by (unfold PACKET_PER_EVO_MIN, PACKET_PER_EVO_MAX; lia). reflexivity.
Qed.
(* --- parsing stream keys *)
Lemma stream_key_parse_safe b : stream_key_create_from_buffer b <> UB.
Proof.
  destruct b as [b|]; [|discriminate]. unfold stream_key_create_from_buffer. destruct (pb_stream_key_unpack b) as [m|]; [|discriminate].
  cbn [lift rbind]. unfold stream_key_create_from_proto. destruct (pst_cipher_key m) as [k|]; [|discriminate]. destruct (pst_evo m) as [e|]; [|discriminate].
  destruct (pst_ppe m) as [p|]; [|discriminate]. destruct (buffer_create k) as [kb|]; [|discriminate]. cbn [lift rbind].
  pose proof (key_parse_safe (Some kb)). destruct (cipher_key_from_buffer (Some kb)); cbn [rbind]; [|discriminate|congruence].
  destruct (buffer_create e); [|discriminate]. cbn [lift rbind].
  destruct (pst_user m) as [u|]; [destruct (buffer_create u); [|discriminate]|]; cbn [lift rbind]; destruct (stream_key_create_user_data _ _ _ _); discriminate.
Qed.
Lemma stream_key_parse_good b k : stream_key_create_from_buffer b = Val k ->
  good_key (sk_cipher k) /\ within_limit (blen (sk_evo k)) /\ 1 <= sk_ppe k <= 32768 /\ (forall u, sk_user k = Some u -> within_limit (blen u)).
Proof.
  destruct b as [b|]; [|discriminate]. unfold stream_key_create_from_buffer. intros H. apply rbind_Val in H. destruct H as (m & _ & H).
  unfold stream_key_create_from_proto in H. destruct (pst_cipher_key m) as [kb|]; [|discriminate]. destruct (pst_evo m) as [e|]; [|discriminate].
  destruct (pst_ppe m) as [p|]; [|discriminate]. apply rbind_Val in H. destruct H as (x & Hx & H). apply lift_Val' in Hx. apply buffer_create_Some in Hx. destruct Hx as [-> Hx].
  apply rbind_Val in H. destruct H as (c & Hc & H). apply size_ok_limit in Hx.
  apply key_parse_inv in Hc; [|unfold within_limit, library_limit, two64 in *; lia]. destruct Hc as [Gc _].
  apply rbind_Val in H. destruct H as (y & Hy & H). apply lift_Val' in Hy. apply buffer_create_Some in Hy. destruct Hy as [-> Hy]. apply size_ok_limit in Hy.
  apply rbind_Val in H. destruct H as (u & Hu & H). apply lift_Val' in H. unfold stream_key_create_user_data in H. destruct (_ || _) eqn:L; [discriminate|].
  apply Some_inj in H. subst k. cbn [sk_cipher sk_evo sk_ppe sk_user]. unfold PACKET_PER_EVO_MIN, PACKET_PER_EVO_MAX in L.
  split; [exact Gc|]. split; [exact Hy|]. split; [lia|]. intros z ->. destruct (pst_user m) as [w|]; [|discriminate].
  apply rbind_Val in Hu. destruct Hu as (v & Hv & Hu). apply lift_Val' in Hv. apply buffer_create_Some in Hv. destruct Hv as [-> Hv].
  apply Val_inj in Hu. apply Some_inj in Hu. subst z. apply size_ok_limit, Hv.
Qed.
(* --- reference counting *)
Lemma refs_run ops : forall c, 1 <= sc_refs c -> sc_refs c + N.of_nat (length ops) < two64 ->
  (ref_run c ops = None <-> exists p q, ops = (p ++ q)%list /\ releases p = sc_refs c + takes p) /\
  (forall c', ref_run c ops = Some c' ->
     sc_key c' = sc_key c /\ sc_last c' = sc_last c /\ sc_dir c' = sc_dir c /\ sc_iv c' = sc_iv c /\ sc_refs c' + releases ops = sc_refs c + takes ops).
Proof.
  induction ops as [|[] ops IH]; intros c R B; cbn [ref_run length] in *.
  - split.
    + split; [discriminate|]. intros (p & q & E & L). destruct p; [|discriminate]. unfold releases, takes in L. cbn [filter length] in L. lia.
    + intros c' H. apply Some_inj in H. subst c'. repeat (split; [reflexivity|]). unfold releases, takes. cbn [filter length]. lia.
  - unfold stream_ctx_ref_up. replace (sc_refs c =? two64 - 1) with false by lia. cbn [snd]. rewrite (N.mod_small (sc_refs c + 1) two64) by lia.
    set (c1 := {| sc_key := _ |}). destruct (IH c1) as [A C]; [cbn [c1 sc_refs]; lia|cbn [c1 sc_refs]; lia|]. split.
    + rewrite A. cbn [c1 sc_refs]. split; intros (p & q & E & L).
      * exists (true :: p), q. split; [cbn [app]; congruence|]. unfold releases, takes in *. cbn [filter length negb]. lia.
      * destruct p as [|[] p]; [unfold releases, takes in L; cbn [filter length] in L; lia| |discriminate]. exists p, q. cbn [app] in E. injection E as E.
        split; [exact E|]. unfold releases, takes in *. cbn [filter length negb] in *. lia.
    + intros c' H. apply C in H. cbn [c1 sc_key sc_last sc_dir sc_iv sc_refs] in H. destruct H as (H1 & H2 & H3 & H4 & H5). repeat (split; [assumption|]).
      unfold releases, takes in *. cbn [filter length negb]. lia.
  - unfold stream_ctx_destroy. replace (sc_refs c =? 0) with false by lia. cbv zeta. destruct (N.eqb_spec (sc_refs c - 1) 0) as [Z|Z].
    + split; [|discriminate]. split; [intros _|reflexivity]. exists [false], ops. split; [reflexivity|]. unfold releases, takes. cbn [filter length negb]. lia.
    + set (c1 := {| sc_key := _ |}). destruct (IH c1) as [A C]; [cbn [c1 sc_refs]; lia|cbn [c1 sc_refs]; lia|]. split.
      * rewrite A. cbn [c1 sc_refs]. split; intros (p & q & E & L).
        -- exists (false :: p), q. split; [cbn [app]; congruence|]. unfold releases, takes in *. cbn [filter length negb]. lia.
        -- destruct p as [|[] p]; [unfold releases, takes in L; cbn [filter length] in L; lia|discriminate|]. exists p, q. cbn [app] in E. injection E as E.
           split; [exact E|]. unfold releases, takes in *. cbn [filter length negb] in *. lia.
      * intros c' H. apply C in H. cbn [c1 sc_key sc_last sc_dir sc_iv sc_refs] in H. destruct H as (H1 & H2 & H3 & H4 & H5). repeat (split; [assumption|]).
        unfold releases, takes in *. cbn [filter length negb]. lia.
Qed.
Lemma ref_up_cases c : 1 <= sc_refs c < two64 ->
  (sc_refs c = two64 - 1 /\ stream_ctx_ref_up c = (false, c)) \/
  (sc_refs c < two64 - 1 /\ exists c1, stream_ctx_ref_up c = (true, c1) /\ sc_refs c1 = sc_refs c + 1 /\
     sc_key c1 = sc_key c /\ sc_last c1 = sc_last c /\ sc_dir c1 = sc_dir c /\ sc_iv c1 = sc_iv c).
Proof.
  intros R. unfold stream_ctx_ref_up. destruct (N.eqb_spec (sc_refs c) (two64 - 1)) as [E|E]; [left; auto|right]. split; [lia|].
  eexists. split; [reflexivity|]. cbn [sc_refs sc_key sc_last sc_dir sc_iv]. rewrite N.mod_small by lia. auto.
Qed.
Lemma destroy_cases c : 1 <= sc_refs c < two64 ->
  (sc_refs c = 1 /\ stream_ctx_destroy c = None) \/
  (1 < sc_refs c /\ exists c1, stream_ctx_destroy c = Some c1 /\ sc_refs c1 = sc_refs c - 1 /\
     sc_key c1 = sc_key c /\ sc_last c1 = sc_last c /\ sc_dir c1 = sc_dir c /\ sc_iv c1 = sc_iv c).
Proof.
  intros R. unfold stream_ctx_destroy. replace (sc_refs c =? 0) with false by lia. cbv zeta. destruct (N.eqb_spec (sc_refs c - 1) 0) as [E|E]; [left; split; [lia|reflexivity]|right].
  split; [lia|]. eexists. split; [reflexivity|]. cbn [sc_refs sc_key sc_last sc_dir sc_iv]. auto.
Qed.
Lemma takes_cons b l : takes (b :: l) = (if b then 1 else 0) + takes l.
Proof. unfold takes. destruct b; cbn [filter length]; lia. Qed.
Lemma releases_cons b l : releases (b :: l) = (if b then 0 else 1) + releases l.
Proof. unfold releases. destruct b; cbn [filter length negb]; lia. Qed.
Lemma refs_granted ops : forall c, 1 <= sc_refs c < two64 ->
  (ref_run c ops = None <-> exists p q, ops = (p ++ q)%list /\ releases p = sc_refs c + granted c p) /\
  (forall c', ref_run c ops = Some c' -> 1 <= sc_refs c' < two64 /\
     sc_key c' = sc_key c /\ sc_last c' = sc_last c /\ sc_dir c' = sc_dir c /\ sc_iv c' = sc_iv c /\ sc_refs c' + releases ops = sc_refs c + granted c ops).
Proof.
  induction ops as [|[] ops IH]; intros c R; cbn [ref_run].
  - split.
    + split; [discriminate|]. intros (p & q & E & L). destruct p; [|discriminate]. unfold releases in L. cbn [filter length granted] in L. lia.
    + intros c' H. apply Some_inj in H. subst c'. split; [exact R|]. repeat (split; [reflexivity|]). unfold releases. cbn [filter length granted]. lia.
  - destruct (ref_up_cases c R) as [(E & U)|(E & c1 & U & R1 & K)].
    + destruct (IH c R) as [A C]. rewrite U. cbn [snd]. split.
      * rewrite A. split; intros (p & q & F & L).
        -- exists (true :: p), q. split; [cbn [app]; congruence|]. rewrite releases_cons. cbn [granted]. rewrite U. cbn [fst snd]. lia.
        -- destruct p as [|[] p]; [unfold releases in L; cbn [filter length granted] in L; lia| |discriminate]. exists p, q. cbn [app] in F. injection F as F.
           split; [exact F|]. rewrite releases_cons in L. cbn [granted] in L. rewrite U in L. cbn [fst snd] in L. lia.
      * intros c' H. apply C in H. destruct H as (H0 & H1 & H2 & H3 & H4 & H5). repeat (split; [assumption|]).
        rewrite releases_cons. cbn [granted]. rewrite U. cbn [fst snd]. lia.
    + destruct (IH c1) as [A C]; [lia|]. rewrite U. cbn [snd]. split.
      * rewrite A. split; intros (p & q & F & L).
        -- exists (true :: p), q. split; [cbn [app]; congruence|]. rewrite releases_cons. cbn [granted]. rewrite U. cbn [fst snd]. lia.
        -- destruct p as [|[] p]; [unfold releases in L; cbn [filter length granted] in L; lia| |discriminate]. exists p, q. cbn [app] in F. injection F as F.
           split; [exact F|]. rewrite releases_cons in L. cbn [granted] in L. rewrite U in L. cbn [fst snd] in L. lia.
      * intros c' H. apply C in H. destruct H as (H0 & H1 & H2 & H3 & H4 & H5). destruct K as (K1 & K2 & K3 & K4). repeat (split; [congruence||assumption|]).
        rewrite releases_cons. cbn [granted]. rewrite U. cbn [fst snd]. lia.
  - destruct (destroy_cases c R) as [(E & U)|(E & c1 & U & R1 & K)].
    + rewrite U. split; [|discriminate]. split; [intros _|reflexivity]. exists [false], ops. split; [reflexivity|]. rewrite releases_cons. unfold releases. cbn [granted filter length]. rewrite U. lia.
    + destruct (IH c1) as [A C]; [lia|]. rewrite U. split.
      * rewrite A. split; intros (p & q & F & L).
        -- exists (false :: p), q. split; [cbn [app]; congruence|]. rewrite releases_cons. cbn [granted]. rewrite U. lia.
        -- destruct p as [|[] p]; [unfold releases in L; cbn [filter length granted] in L; lia|discriminate|]. exists p, q. cbn [app] in F. injection F as F.
           split; [exact F|]. rewrite releases_cons in L. cbn [granted] in L. rewrite U in L. lia.
      * intros c' H. apply C in H. destruct H as (H0 & H1 & H2 & H3 & H4 & H5). destruct K as (K1 & K2 & K3 & K4). repeat (split; [congruence||assumption|]).
        rewrite releases_cons. cbn [granted]. rewrite U. lia.
Qed.
Lemma refs_created P k d s c s' ops : good_stream_key k -> stream_ctx_create P (Some k) d s = (Val c, s') -> N.of_nat (length ops) < two64 - 1 ->
  (ref_run c ops = None <-> all_released ops) /\
  (forall c', ref_run c ops = Some c' -> sc_key c' = sc_key c /\ sc_last c' = sc_last c /\ sc_dir c' = sc_dir c /\ sc_iv c' = sc_iv c).
Proof.
  intros G C B. destruct (create_inv _ _ _ _ _ _ G C) as (_ & _ & _ & R & _). destruct (refs_run ops c) as [X Y]; [lia|lia|]. rewrite R in X, Y.
  split; [exact X|]. intros c' H. apply Y in H. tauto.
Qed.
Lemma refs_all P k d s c s' ops : good_stream_key k -> stream_ctx_create P (Some k) d s = (Val c, s') ->
  (ref_run c ops = None <-> exists p q, ops = (p ++ q)%list /\ releases p = 1 + granted c p) /\
  (forall c', ref_run c ops = Some c' -> sc_key c' = sc_key c /\ sc_last c' = sc_last c /\ sc_dir c' = sc_dir c /\ sc_iv c' = sc_iv c /\
     (fst (stream_ctx_ref_up c') = false <-> 1 + granted c ops = releases ops + (two64 - 1))).
Proof.
  intros G C. destruct (create_inv _ _ _ _ _ _ G C) as (_ & _ & _ & R & _).
  assert (B : 1 <= sc_refs c < two64) by (rewrite R; unfold two64; lia).
  destruct (refs_granted ops c B) as [X Y]. rewrite R in X, Y.
  split; [exact X|]. intros c' H. apply Y in H. destruct H as (H0 & H1 & H2 & H3 & H4 & H5). repeat (split; [assumption|]).
  destruct (ref_up_cases c' H0) as [(E & U)|(E & c1 & U & _)]; rewrite U; cbn [fst]; split; intros Q; try discriminate; try reflexivity; lia.
Qed.
Lemma sender_sends P k s c s' ops d a n : hmac_ok P -> aead_ok P -> good_stream_key k ->
  stream_ctx_create P (Some k) ENCODE s = (Val c, s') -> N.of_nat (length ops) < two64 ->
  sc_last (snd (stream_run P c ops)) < n -> blen d < library_limit -> blen (bytes_of a) <= library_limit ->
  exists r, fst (stream_ctx_encode P (snd (stream_run P c ops)) (Some d) a n) = Val r.
Proof.
  intros H HA G C B. destruct (create_inv _ _ _ _ _ _ G C) as (I & _ & D & _ & _ & seed & _ & V).
  assert (K : forall ops c gen, inv P k c -> sc_dir c = ENCODE -> sc_iv c = Some gen -> si_cipher gen = AES256_GCM -> si_count gen + N.of_nat (length ops) < two64 ->
    inv P k (snd (stream_run P c ops)) /\ sc_dir (snd (stream_run P c ops)) = ENCODE /\ exists g, sc_iv (snd (stream_run P c ops)) = Some g /\ si_cipher g = AES256_GCM).
  { clear - H. induction ops as [|o ops IH]; intros c gen I D V Q B; [eauto|]. cbn [length] in B. rewrite run_cons. cbn [snd].
    destruct (step_gen P k o c gen H I D V Q ltac:(lia)) as (g & V1 & D1 & _ & C1 & B1 & _). apply (IH _ g); [apply (step_inv P k o c H I)|assumption|assumption|assumption|lia]. }
  destruct (K ops c _ I D V eq_refl ltac:(cbn [si_count]; lia)) as (I' & D' & g & V' & C'). intros L L1 L2.
  apply (encode_succeeds P k _ g); assumption.
Qed.
Lemma copy_reuses_created P k s c s' ops c' d1 d2 a1 a2 n1 n2 r1 r2 : hmac_ok P -> good_stream_key k ->
  stream_ctx_create P (Some k) ENCODE s = (Val c, s') ->
  stream_ctx_copy (Some (snd (stream_run P c ops))) = Some c' ->
  fst (stream_ctx_encode P (snd (stream_run P c ops)) (Some d1) a1 n1) = Val r1 -> fst (stream_ctx_encode P c' (Some d2) a2 n2) = Val r2 ->
  n1 / sk_ppe k = n2 / sk_ppe k -> cr_iv r1 = cr_iv r2 /\ packet_key P k n1 = packet_key P k n2.
Proof. intros H G C. destruct (create_inv _ _ _ _ _ _ G C) as (I & _). destruct (run_inv P k ops H c I) as (I' & _). apply copy_reuses; assumption. Qed.
Lemma stream_key_serializes k : good_stream_key k -> blen (sk_evo k) + blen (bytes_of (sk_user k)) + 1000 <= library_limit ->
  exists b, stream_key_serialize (Some k) = Val b.
Proof.
  intros (A & B & C & D & E) L. unfold stream_key_serialize, stream_key_to_proto. rewrite (key_serialize_ok _ B).
  rewrite pack_buffer_ok; [eexists; reflexivity|]. unfold pb_stream_key_pack. cbn [pst_cipher_key pst_evo pst_ppe pst_user]. rewrite !blen_app.
  pose proof (f_len_opt_size 1 (Some (key_wire (sk_cipher k)))) as Q1. pose proof (f_len_opt_size 2 (Some (sk_evo k))) as Q2.
  pose proof (f_len_opt_size 4 (sk_user k)) as Q3. pose proof (f_var_opt_size 3 (Some (sk_ppe k))) as Q4. cbn [oblen] in Q1, Q2.
  assert (K : blen (key_wire (sk_cipher k)) <= 100) by (pose proof (proj1 (good_key_len _) B); unfold key_wire; rewrite blen_cons; lia).
  assert (O : oblen (sk_user k) = blen (bytes_of (sk_user k))) by (destruct (sk_user k); reflexivity).
  pose proof (blen_f_len 2 (sk_evo k)). unfold within_limit in *. cbn [f_len_opt] in *. lia.
Qed.
Lemma stream_decode_opened P k s c s' ops r a n d : hmac_ok P -> good_stream_key k -> good_result r -> (forall x, a = Some x -> within_limit (blen x)) ->
  stream_ctx_create P (Some k) DECODE s = (Val c, s') ->
  fst (stream_ctx_decode P (snd (stream_run P c ops)) (Some r) a n) = Val d -> opened P r (ck_data (packet_key P k n)) (bytes_of a) d.
Proof.
  intros H G R A C. destruct (create_inv _ _ _ _ _ _ G C) as (I & _). destruct (run_inv P k ops H c I) as (I' & _).
  destruct (decode_cases P k _ (Some r) a n H I') as [E|(r' & Er & _ & L & k' & _ & Gk & Q & M & E)]; rewrite E; cbn [fst]; [discriminate|].
  apply Some_inj in Er. subst r'. intros D. apply decrypt_opened in D; [apply D| |exact R|].
  - assert (PK : sk_cipher k' = packet_key P k n) by (apply good_cipher; [exact Gk|rewrite M; reflexivity]). rewrite <- PK. apply Gk.
  - intros x Hx. apply A in Hx. unfold within_limit, library_limit, INT_MAX in *. lia.
Qed.
