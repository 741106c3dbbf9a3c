(* Rules for the functions of Model/HeapStream.v. *)
From Verif.Base Require Import Bytes Monad.
From Verif.Model Require Import Buffer Cipher Ecdsa Kdf Prims Engine Stream Proto Heap HeapObjects HeapMessages HeapParse HeapWrite HeapEngine HeapProtocol HeapGenerate HeapStream.
From Verif.Spec Require Import HeapSpec HeapObjectSpec BufferSpec CopySpec HeapParseSpec HeapWriteSpec HeapEngineSpec HeapProtocolSpec HeapGenerateSpec HeapContextSpec HeapStreamSpec.
From Verif.Spec Require Import CodecSpec.
From Verif.Proofs Require Import BytesFacts BufferFacts ParserFacts HeapFacts HeapObjectFacts HeapMessageFacts HeapCtxFacts HeapParseFacts HeapWriteFacts HeapEngineFacts HeapKdfFacts HeapProtocolFacts HeapExchangeFacts HeapPacketFacts HeapReadingFacts HeapGenerateFacts HeapContextFacts.
From Coq Require Import Permutation ZifyBool ZifyNat ZifyN.
Local Open Scope N_scope.

(* changing an object while reading arguments that are apart from it *)
Definition use_rule {A} (args : list (list cell)) (owned : list cell) (left : A -> list cell) (right : schedule -> A -> Prop)
  (public exposed : list bytes) (untested : list ctype) (leak : schedule -> Prop) (op : H A) : Prop :=
  forall secret (U W : Prop) fails h0 X h (Q : A -> heap -> Prop),
    (forall n ty, In ty untested -> fails n ty = true -> U) -> (leak fails -> W) ->
    ext secret W h0 (owned ++ X) h -> all_in_memory h0 args -> keeps_secret secret public -> (some_failure fails -> keeps_secret secret exposed) ->
    (forall a h1, ext secret W h0 (left a ++ X) h1 -> right fails a -> Q a h1) ->
    wp U fails op h Q.
Lemma apart_in_memory h owned a : in_memory h a -> (forall b, In b (map fst a) -> ~ In b (map fst owned)) -> in_memory (without h owned) a.
Proof.
  intros (ND & M) S. split; [exact ND|]. intros b c I. rewrite without_out; [exact (M b c I)|]. apply S. apply in_map_iff. exists (b, c). split; [reflexivity|exact I].
Qed.
Lemma use_sound {A} args owned (left : A -> list cell) right public exposed untested leak op :
  use_rule args owned left right public exposed untested leak op -> changes_in_memory args owned left right public exposed untested leak op.
Proof.
  intros R secret fails h OK M MA AP K KE.
  pose (U := exists n ty, In ty untested /\ fails n ty = true).
  pose (Q := fun (a : A) h' => exists leaked, (leaked = [] \/ leak fails) /\ changed h owned (leaked ++ left a) h' /\ wiped secret h h' /\ right fails a).
  assert (G : wp U fails op h Q).
  { eapply R with (W := leak fails) (h0 := without h owned) (X := []); try eassumption.
    - intros n ty I F. exists n, ty. split; assumption.
    - auto.
    - exists []. split; [left; reflexivity|]. rewrite app_nil_r. cbn [app]. apply ext0_without; assumption.
    - unfold all_in_memory, separate in *. rewrite Forall_forall in *. intros a I. apply apart_in_memory; [exact (MA a I)|exact (AP a I)].
    - intros a h1 (L & B & E) F. rewrite app_nil_r in E. exists L. split; [exact B|]. destruct E as (O & N & C & D & Wp). split; [|split; [exact Wp|exact F]].
      split; [exact O|]. split; [split; [exact N|intros b c I; apply (C b c I)]|]. split; [|split].
      + intros b I NO. apply in_map_iff in I. destruct I as ((b' & c) & <- & I). cbn [fst] in *. rewrite <- (proj2 (C b' c I)). symmetry. apply without_out. exact NO.
      + intros b I NN. rewrite (D b NN). apply without_in. exact I.
      + intros b NO NN. rewrite (D b NN). apply without_out. exact NO. }
  unfold wp in G. destruct (op fails h) as [[a h']|]; exact G.
Qed.

(* giving an answer and the context *)
Ltac hand :=
  repeat wstep; match goal with QA : forall a h1, ext _ _ _ _ h1 -> _ -> ?Q a h1, E : ext _ _ _ _ ?h |- ?Q _ ?h => apply QA; cbn [fst snd cells_opt hsc_set hsc_addr hsc_key hsc_last hsc_dir hsc_iv];
    [unfold sc_cells, hsc_set; cbn [hsc_addr hsc_key hsc_iv]; repeat match goal with G : hsc_iv _ = _ |- _ => rewrite G end; cbn [cells_opt];
     repeat match goal with G : forall g', _ -> _ -> si_cells g' = _ |- context [si_cells ?g] => rewrite (G g) by assumption; clear G end; eapply ext_perm; [|exact E]; solve_perm|
     split; [unfold same_place, hsc_set; cbn [hsc_addr hsc_key hsc_last hsc_dir hsc_iv]; repeat match goal with G : hsc_iv _ = _ |- _ => rewrite G end; cbn [option_map]; repeat split; congruence|]] end.
Section stream.
  Context (P : prims).

  Lemma evo_section d : blen d = 64 -> exists c e, buffer_copy_section d 0 (digest_size SHA512 / 2) = Some c /\ buffer_copy_section d (digest_size SHA512 / 2) (digest_size SHA512 / 2) = Some e /\ blen c = 32 /\ blen e = 32.
  Proof.
    intros L. destruct (halves d L) as (A & B). change (digest_size SHA512 / 2) with 32. exists (firstn 32 d), (skipn 32 d). repeat split; try assumption; unfold blen in *; rewrite ?firstn_length, ?skipn_length; lia.
  Qed.
  Lemma evolve_turn_some (R : hmac_ok P) k : made_stream_key k -> exists k', evolve_turn P k = Some k' /\ made_stream_key k' /\ ck_cipher (sk_cipher k') = ck_cipher (sk_cipher k) /\ sk_user k' = None.
  Proof.
    intros (MC & ME & MP & MU). unfold evolve_turn. cbn [hmac_create]. pose proof (R SHA512 (sk_evo k) (ck_data (sk_cipher k))) as L. cbv zeta.
    rewrite L, N.eqb_refl. cbn [negb]. destruct (evo_section _ L) as (c & e & C & E & LC & LE). unfold stream_key_create_with_evo_buffer. rewrite C, E. unfold cipher_key_create.
    rewrite LC. replace (32 =? key_len (ck_cipher (sk_cipher k))) with true by (destruct (ck_cipher (sk_cipher k)); reflexivity). cbn [negb]. unfold stream_key_create, stream_key_create_user_data.
    unfold PACKET_PER_EVO_MIN, PACKET_PER_EVO_MAX in *.
    replace ((sk_ppe k <? 1) || (32768 <? sk_ppe k)) with false by lia. eexists. split; [reflexivity|]. split; [|split; reflexivity]. split; [|split; [|split; [exact MP|intros x X; discriminate X]]]; cbn.
    - unfold made_cipher_key. cbn. rewrite LC. destruct (ck_cipher (sk_cipher k)); reflexivity.
    - unfold real, within_limit, library_limit. rewrite LE. lia.
  Qed.

  Lemma with_evo_wp k b secret (U W : Prop) fails h0 X h (Q : option hst -> heap -> Prop) :
    (forall n ty, In ty [T_cipher_key] -> fails n ty = true -> U) -> 
    ext secret W h0 (buf_cells b ++ st_cells k ++ X) h -> keeps_secret secret [] ->
    (forall h1, ext secret W h0 (buf_cells b ++ st_cells k ++ X) h1 -> stream_key_create_with_evo_buffer (st_value k) (b_bytes b) = None \/ some_failure fails -> Q None h1) ->
    (forall k' h1, ext secret W h0 (st_cells k' ++ buf_cells b ++ st_cells k ++ X) h1 -> stream_key_create_with_evo_buffer (st_value k) (b_bytes b) = Some (st_value k') -> Q (Some k') h1) ->
    wp U fails (h_stream_key_create_with_evo_buffer k b) h Q.
  Proof.
    intros HU E K0 QN QS. unfold h_stream_key_create_with_evo_buffer, stream_key_create_with_evo_buffer in *. rdh. wstep.
    change (ck_cipher (sk_cipher (st_value k))) with (hck_cipher (hst_cipher k)) in *. change (sk_ppe (st_value k)) with (hst_ppe k) in *.
    section; [out; rewrite N in *; left; reflexivity|out; right; sfailed|]. rewrite V in *. wstep. section.
    - repeat wstep. wipe b0. out. rewrite N. left. reflexivity.
    - repeat wstep. wipe b0. out. right. sfailed.
    - rewrite V0 in *. wstep. inside k st_cells. inner (hst_cipher k) ck_cells. do 4 wstep. make_key b0.
      + rewrite N in *. repeat wstep. wipe b0. repeat wstep. wipe b1. out. left. reflexivity.
      + rewrite V1 in *. unfold stream_key_create, stream_key_create_user_data, h_stream_key_create in *. wstep. destruct (_ || _).
        * rid cipher_key_destroy_rule k0; [exact K0|]. repeat wstep. wipe b1. out. left. reflexivity.
        * wstep. wstep.
          -- rid cipher_key_destroy_rule k0; [exact K0|]. repeat wstep. wipe b1. out. right. sfailed.
          -- repeat wstep. there. reflexivity.
  Qed.
  Lemma evolve_turn_wp (R : hmac_ok P) k secret (U W : Prop) fails h0 X h (Q : option hst -> heap -> Prop) :
    (forall n ty, In ty [T_cipher_key] -> fails n ty = true -> U) -> made_stream_key (st_value k) ->
    ext secret W h0 (st_cells k ++ X) h -> keeps_secret secret (opt_list (sk_user (st_value k))) ->
    (forall h1, ext secret W h0 X h1 -> some_failure fails -> Q None h1) ->
    (forall k' h1, ext secret W h0 (st_cells k' ++ X) h1 -> evolve_turn P (st_value k) = Some (st_value k') -> Q (Some k') h1) ->
    wp U fails (h_evolve_turn P k) h Q.
  Proof.
    intros HU MD E K QN QS. pose proof (keeps_none _ _ K) as K0. assert (HW : never_leaks_op fails -> W) by intros []. unfold h_evolve_turn. inside k st_cells. inner (hst_cipher k) ck_cells.
    destruct (evolve_turn_some R _ MD) as (k1 & T & _). unfold evolve_turn in *.
    change (hmac_create P (Some (ck_data (sk_cipher (st_value k)))) (Some (sk_evo (st_value k))) SHA512) with (hmac_create P (option_map b_bytes (Some (hck_data (hst_cipher k)))) (option_map b_bytes (Some (hst_evo k))) SHA512) in *.
    wstep. wstep. wstep. wstep. call (hmac_create_rule P R (Some (hck_data (hst_cipher k))) (Some (hst_evo k)) SHA512).
    - intros V. destruct (lift_ub _ V).
    - apply lift_null in N. rewrite N in T. discriminate T.
    - rid stream_key_destroy_rule k; [exact K|]. out. sfailed.
    - apply lift_val in V. rewrite V in *. wstep. eapply with_evo_wp; [try untested_tac|exact E0|exact K0| |].
      + intros h2 E2 F. rid stream_key_destroy_rule k; [exact K|]. repeat wstep. wipe t. out. destruct F as [F|F]; [rewrite F in T; discriminate T|exact F].
      + intros k2 h2 E2 V2. rid stream_key_destroy_rule k; [exact K|]. repeat wstep. wipe t. repeat wstep. there. exact V2.
  Qed.
  Lemma evolve_loop_wp (R : hmac_ok P) n k secret (U W : Prop) fails h0 X h :
    (forall n ty, In ty [T_cipher_key] -> fails n ty = true -> U) -> made_stream_key (st_value k) ->
    ext secret W h0 (st_cells k ++ X) h -> keeps_secret secret (opt_list (sk_user (st_value k))) ->
    forall (Q : option hst -> heap -> Prop),
    (forall h1, ext secret W h0 X h1 -> some_failure fails -> Q None h1) ->
    (forall k' h1, ext secret W h0 (st_cells k' ++ X) h1 -> evolve_loop P n (st_value k) = Some (st_value k') -> made_stream_key (st_value k') ->
       ck_cipher (sk_cipher (st_value k')) = ck_cipher (sk_cipher (st_value k)) -> keeps_secret secret (opt_list (sk_user (st_value k'))) -> Q (Some k') h1) ->
    wp U fails (h_evolve_loop P n k) h Q.
  Proof.
    intros HU MD E K. unfold h_evolve_loop, evolve_loop. induction n as [|n IH] using N.peano_ind; intros Q QN QS.
    - cbn [N.iter] in *. wstep. apply QS; auto.
    - rewrite N.iter_succ in *. wstep. apply IH.
      + intros h1 E1 F. wstep. apply QN; assumption.
      + intros k1 h1 E1 V1 M1 C1 K1. rewrite V1 in QS. destruct (evolve_turn_some R _ M1) as (v & T & MV & CV & UV). eapply evolve_turn_wp; try eassumption.
        intros k2 h2 E2 V2. rewrite T in V2. apply Some_inj' in V2. subst v. apply QS; try assumption; try congruence. rewrite UV. exact (keeps_none _ _ K).
  Qed.
  Lemma evolve_wp (R : hmac_ok P) k last seq c secret (U W : Prop) fails h0 X h (Q : option hst -> heap -> Prop) :
    (forall n ty, In ty [T_cipher_key] -> fails n ty = true -> U) -> made_stream_key (st_value k) -> sc_key c = st_value k -> sc_last c = last ->
    ext secret W h0 (st_cells k ++ X) h -> keeps_secret secret (opt_list (sk_user (st_value k))) ->
    (forall h1, ext secret W h0 (st_cells k ++ X) h1 -> evolve_key_material P c seq = None \/ some_failure fails -> Q None h1) ->
    (forall k' h1, ext secret W h0 (st_cells k' ++ X) h1 -> evolve_key_material P c seq = Some (st_value k') -> made_stream_key (st_value k') ->
       ck_cipher (sk_cipher (st_value k')) = ck_cipher (sk_cipher (st_value k)) -> Q (Some k') h1) ->
    wp U fails (h_evolve_key_material P k last seq) h Q.
  Proof.
    intros HU MD CK CL E K QN QS. pose proof (keeps_none _ _ K) as K0. unfold h_evolve_key_material, evolve_key_material in *. rewrite CK, CL, (CopyFacts.stream_key_made _ MD) in *. change (sk_ppe (st_value k)) with (hst_ppe k) in *. cbv zeta in *.
    inside k st_cells. wstep. wstep. destruct (_ <? _); [wstep; apply QN; [exact E|left; reflexivity]|]. destruct (_ =? _); [wstep; apply QS; auto|].
    wstep. call (copy_op _ _ _ _ _ _ _ k stream_key_copy_rule MD).
    - discriminate.
    - discriminate N.
    - out. right. exact F.
    - apply Val_inj in V. wstep. assert (MT : made_stream_key (st_value t)) by (rewrite <- V; exact MD). assert (KT : keeps_secret secret (opt_list (sk_user (st_value t)))) by (rewrite <- V; exact K).
      eapply evolve_loop_wp; [exact R|exact HU|exact MT|exact E0|exact KT| |].
      + intros h2 E2 F. out. right. exact F.
      + intros k2 h2 E2 V2 M2 C2 K2. rewrite <- V in V2, C2. rid stream_key_destroy_rule k; [exact K|]. repeat wstep. apply QS; assumption.
  Qed.
  Lemma iv_generate_wp (R : hmac_ok P) g secret (U W : Prop) fails h0 X h (Q : option hbuf * hsi -> heap -> Prop) :
    ext secret W h0 (si_cells g ++ X) h -> keeps_secret secret [] ->
    (forall h1, ext secret W h0 (si_cells g ++ X) h1 -> some_failure fails -> Q (None, g) h1) ->
    (forall b g' h1, ext secret W h0 (buf_cells b ++ si_cells g ++ X) h1 -> stream_iv_generate P (si_value g) = (Some (b_bytes b), si_value g') ->
       hsi_addr g' = hsi_addr g -> hsi_seed g' = hsi_seed g -> hsi_cipher g' = hsi_cipher g -> blen (b_bytes b) = iv_len (hsi_cipher g) -> Q (Some b, g') h1) ->
    wp U fails (h_stream_iv_generate P g) h Q.
  Proof.
    intros E K0 QN QS. unfold h_stream_iv_generate, stream_iv_generate in *. inside g si_cells. wstep. wstep. rdh. wstep.
    change (si_seed (si_value g)) with (b_bytes (hsi_seed g)) in *. change (si_count (si_value g)) with (hsi_count g) in *. change (si_cipher (si_value g)) with (hsi_cipher g) in *.
    pose proof (R SHA512 (b_bytes (hsi_seed g)) (le_enc 8 (hsi_count g))) as L. cbn [hmac_create] in QS. cbv zeta in QS. rewrite L, N.eqb_refl in QS. cbn [negb] in QS.
    assert (B : blen (firstn (N.to_nat (iv_len (hsi_cipher g))) (p_hmac P SHA512 (b_bytes (hsi_seed g)) (le_enc 8 (hsi_count g)))) = iv_len (hsi_cipher g)).
    { unfold blen in *. rewrite firstn_length. destruct (hsi_cipher g); cbn [iv_len digest_size] in *; lia. }
    put.
    - rewrite buffer_create_ok in N; [discriminate N|]. rewrite B. destruct (hsi_cipher g); reflexivity.
    - wstep. apply QN; [exact E0|sfailed].
    - wstep. apply QS; try reflexivity.
      + exact E0.
      + rewrite B0. reflexivity.
      + rewrite B0. exact B.
  Qed.

  (* ---- making a context ---- *)
  Lemma stream_ctx_create_rule (R : rand_ok P) k d s :
    change_rule [] (st_cells k) (taken sc_cells (st_cells k)) (makes sc_value (fst (stream_ctx_create P (Some (st_value k)) d s))) [] (stream_seed P d s) (ctx_untested d) (ctx_leak d)
      (h_stream_ctx_create P (Some k) d s).
  Proof.
    begin_change. unfold h_stream_ctx_create, stream_ctx_create, makes in *. change (ck_cipher (sk_cipher (st_value k))) with (hck_cipher (hst_cipher k)) in *.
    inside k st_cells. inner (hst_cipher k) ck_cells. do 4 wstep. destruct (negb _); [wstep; apply QA; [exact E|left; reflexivity]|]. destruct d.
    - cbn [stream_seed ctx_untested ctx_leak] in *. assert (HW0 : never_leaks_op fails -> W) by intros []. rewrite !bind_eq in *. wstep. call (stream_iv_create_rule P R (hck_cipher (hst_cipher k)) s).
      + intros V. exfalso. unfold stream_iv_create in V. rewrite bind_eq in V. pose proof (SafetyFacts.random_safe P (digest_size SHA512) ltac:(cbn [digest_size]; lia) s) as ND. destruct (fst (crypto_random P (digest_size SHA512) s)); [discriminate V|discriminate V|contradiction].
      + rewrite N in QA. repeat wstep. apply QA; [exact E0|left; reflexivity].
      + repeat wstep. apply QA; [exact E0|right; exact F].
      + rewrite V in QA. cbn [rbind mret fst] in QA. wstep. wstep.
        * assert (F : some_failure fails) by sfailed. repeat wstep. apply QA; [eapply ext_leak; [exact (HW F)|eassumption]|right; exact F].
        * repeat wstep. apply QA; [|reflexivity]. cbn [taken]. unfold sc_cells. cbn [hsc_addr hsc_key hsc_iv cells_opt]. match goal with E : ext _ _ _ _ ?h |- ext _ _ _ _ ?h => eapply ext_perm; [|exact E]; solve_perm end.
    - cbn [mbind mret] in QA. wstep. wstep.
      + repeat wstep. apply QA; [eassumption|right; sfailed].
      + repeat wstep. apply QA; [|reflexivity]. cbn [taken]. unfold sc_cells. cbn [hsc_addr hsc_key hsc_iv cells_opt]. match goal with E : ext _ _ _ _ ?h |- ext _ _ _ _ ?h => eapply ext_perm; [|exact E]; solve_perm end.
  Qed.

  (* ---- using it ---- *)
  Lemma decrypt_defined r aad k : made_cipher_key k -> if_set made_cipher_result r -> aes256_decrypt P r aad (Some k) true <> UB.
  Proof.
    intros MK MR. unfold aes256_decrypt. destruct r as [r|]; [|discriminate]. destruct (MR _ eq_refl) as (MI & _). destruct (cr_text r) as [ct|]; [|discriminate]. cbv zeta.
    destruct (_ && _); [discriminate|]. destruct (match aad with Some _ => _ | None => _ end); [discriminate|]. destruct (_ || _); [discriminate|]. destruct (_ && _); [discriminate|]. destruct (negb _); [discriminate|].
    unfold made_cipher_key in MK. rewrite MK. destruct (cr_cipher r); destruct MI as (MI & _); rewrite MI; cbn; [|discriminate]. destruct (p_gcm_dec _ _ _ _ _ _); discriminate.
  Qed.
  Lemma stream_encode_rule (R0 : rand_ok P) (R : hmac_ok P) (A : aead_ok P) (C : ctr_ok P) ctx data aad seq (MC : usable_stream (sc_value ctx)) (MA : if_set real (option_map b_bytes aad)) :
    use_rule [oc buf_cells data; oc buf_cells aad] (sc_cells ctx) (with_ctx cr_cells)
      (advances cr_value ctx (stream_ctx_encode P (sc_value ctx) (option_map b_bytes data) (option_map b_bytes aad) seq)
         [sc_value ctx; nonce_spent P (sc_value ctx); snd (stream_ctx_encode P (sc_value ctx) (option_map b_bytes data) (option_map b_bytes aad) seq)])
      (user_data (sc_value ctx) ++ next_nonce P (sc_value ctx)) [] [T_cipher_key; T_cipher_result] never_leaks_op (h_stream_ctx_encode P ctx data aad seq).
  Proof.
    begin_change. unfold h_stream_ctx_encode, stream_ctx_encode, advances, with_ctx in *. destruct data as [d|]; cbn [option_map fst snd] in *.
    2:{ wstep. apply QA; [exact E|]. split; [repeat split|left; reflexivity]. }
    change (sc_last (sc_value ctx)) with (hsc_last ctx) in *. change (sc_dir (sc_value ctx)) with (hsc_dir ctx) in *. inside ctx sc_cells. wstep. wstep. destruct (_ || _).
    { wstep. apply QA; [exact E|]. split; [repeat split|left; reflexivity]. }
    unfold next_nonce, nonce_spent in *. change (sc_iv (sc_value ctx)) with (option_map si_value (hsc_iv ctx)) in *. destruct MC as ((MK & MC2 & MC3) & MC4). change (sc_iv (sc_value ctx)) with (option_map si_value (hsc_iv ctx)) in MC4.
    unfold sc_cells in E. norm E. destruct (hsc_iv ctx) as [g|] eqn:G; cbn [option_map] in *.
    2:{ wstep. apply QA; [cbn [fst snd cells_opt]; unfold sc_cells; rewrite G; eapply ext_perm; [|exact E]; solve_perm|]. split; [repeat split|left; reflexivity]. }
    specialize (MC4 _ eq_refl). cbn [cells_opt] in *. wstep. pull E (si_cells g). eapply iv_generate_wp; [exact R|exact E|exact K0| |].
    { intros h1 E1 F. hand. right. split; [exact F|]. left. unfold sc_value, hsc_set. rewrite G. reflexivity. }
    intros iv g' h1 E1 GV GA GS GC LV. rewrite GV in *. cbn [fst snd opt_list option_map] in *. wstep. pull E1 (st_cells (hsc_key ctx)).
    assert (SC : forall g', hsi_addr g' = hsi_addr g -> hsi_seed g' = hsi_seed g -> si_cells g' = si_cells g) by (intros g0 Z1 Z2; unfold si_cells; rewrite Z1, Z2; reflexivity).
    eapply evolve_wp with (c := sc_value ctx); [exact R| |exact MK|reflexivity|reflexivity|exact E1| | |].
    - intros n ty I. apply HU. destruct I as [I|[]]. left. exact I.
    - part_of K.
    - intros h2 E2 N. rel iv; [part_of K|]. hand. destruct N as [N|F]; [rewrite N; left; reflexivity|]. right. split; [exact F|]. right. left. reflexivity.
    - intros k h2 E2 V MV CV. rewrite V in *. inside k st_cells. wstep. wstep. assert (LE : iv_len (hck_cipher (hst_cipher k)) = blen (b_bytes iv)).
      { rewrite LV. change (hsi_cipher g) with (si_cipher (si_value g)). rewrite MC4. change (ck_cipher (sk_cipher (st_value k))) with (hck_cipher (hst_cipher k)) in CV. rewrite CV. reflexivity. }
      assert (HW1 : iv_too_long (hck_cipher (hst_cipher k)) (Some iv) fails -> W) by (intros (v & Z & L); apply Some_inj' in Z; subst v; lia).
      assert (ND : fst (aes256_encrypt P (Some (b_bytes d)) (option_map b_bytes aad) (Some (ck_value (hst_cipher k))) (Some (b_bytes iv)) 0%nat) <> UB).
      { apply SafetyFacts.encrypt_iv_safe; [exact R0| |].
        - destruct aad as [a|]; cbn [option_map obytes]; [|apply N.le_0_l]. destruct (MA _ eq_refl) as (_ & L). unfold INT_MAX, library_limit in *. lia.
        - intros v k0 Z Z1. apply Some_inj' in Z, Z1. subst v k0. change (ck_cipher (ck_value (hst_cipher k))) with (hck_cipher (hst_cipher k)). lia. }
      call (aes256_encrypt_rule P R0 A C (Some d) aad (Some (hst_cipher k)) (Some iv) 0%nat); cbn [option_map] in *.
      + intros Z. contradiction.
      + rel iv; [part_of K|]. hand. left. change (sk_cipher (st_value k)) with (ck_value (hst_cipher k)). rewrite N. reflexivity.
      + rel iv; [part_of K|]. hand. right. split; [exact F|]. right. right. left. reflexivity.
      + rel iv; [part_of K|]. hand. change (sk_cipher (st_value k)) with (ck_value (hst_cipher k)). rewrite V0. reflexivity.
  Qed.
  Lemma stream_decode_rule (R : hmac_ok P) (A : aead_len_ok P) (C : ctr_ok P) ctx data aad seq draft (MC : made_stream_ctx (sc_value ctx)) (MD : if_set made_cipher_result (option_map cr_value data)) :
    use_rule [oc cr_cells data; oc buf_cells aad] (sc_cells ctx) (with_ctx buf_cells)
      (advances b_bytes ctx (stream_ctx_decode P (sc_value ctx) (option_map cr_value data) (option_map b_bytes aad) seq)
         [sc_value ctx; snd (stream_ctx_decode P (sc_value ctx) (option_map cr_value data) (option_map b_bytes aad) seq)])
      (user_data (sc_value ctx)) [] [T_cipher_key] never_leaks_op (h_stream_ctx_decode P ctx data aad seq draft).
  Proof.
    begin_change. unfold h_stream_ctx_decode, stream_ctx_decode, advances, with_ctx in *. destruct data as [d|]; cbn [option_map fst snd] in *.
    2:{ wstep. apply QA; [exact E|]. split; [repeat split|left; reflexivity]. }
    change (sc_last (sc_value ctx)) with (hsc_last ctx) in *. change (sc_dir (sc_value ctx)) with (hsc_dir ctx) in *. inside ctx sc_cells. wstep. wstep. destruct (_ || _).
    { wstep. apply QA; [exact E|]. split; [repeat split|left; reflexivity]. }
    unfold sc_cells in E. norm E. pull E (st_cells (hsc_key ctx)). wstep. destruct MC as (MK & MC2 & MC3). eapply evolve_wp with (c := sc_value ctx); [exact R|exact HU|exact MK|reflexivity|reflexivity|exact E|exact K| |].
    - intros h1 E1 N. hand. destruct N as [N|F]; [rewrite N; left; reflexivity|]. right. split; [exact F|left; reflexivity].
    - intros k h1 E1 V MV CV. rewrite V in *. inside k st_cells. wstep. wstep. assert (HW0 : never_leaks_op fails -> W) by intros [].
      pose proof (decrypt_defined (Some (cr_value d)) (option_map b_bytes aad) (ck_value (hst_cipher k)) (proj1 MV) MD) as ND.
      call (aes256_decrypt_rule P A C (Some d) aad (Some (hst_cipher k)) true draft); cbn [option_map] in *.
      + intros Z. contradiction.
      + hand. left. change (sk_cipher (st_value k)) with (ck_value (hst_cipher k)). rewrite N. reflexivity.
      + hand. right. split; [exact F|]. right. left. reflexivity.
      + hand. change (sk_cipher (st_value k)) with (ck_value (hst_cipher k)). rewrite V0. reflexivity.
  Qed.

  (* ---- sessions ---- *)
  Lemma evolve_loop_made (R : hmac_ok P) n k : made_stream_key k -> exists k', evolve_loop P n k = Some k' /\ made_stream_key k' /\
    ck_cipher (sk_cipher k') = ck_cipher (sk_cipher k) /\ incl (opt_list (sk_user k')) (opt_list (sk_user k)).
  Proof.
    intros M. unfold evolve_loop. induction n as [|n (k1 & V & M1 & C1 & I1)] using N.peano_ind.
    - exists k. split; [reflexivity|]. split; [exact M|]. split; [reflexivity|apply incl_refl].
    - rewrite N.iter_succ, V. destruct (evolve_turn_some R _ M1) as (k2 & V2 & M2 & C2 & U2). exists k2. split; [exact V2|]. split; [exact M2|]. split; [congruence|]. rewrite U2. apply incl_nil_l.
  Qed.
  Lemma evolve_made (R : hmac_ok P) c n k : made_stream_key (sc_key c) -> evolve_key_material P c n = Some k -> made_stream_key k /\
    ck_cipher (sk_cipher k) = ck_cipher (sk_cipher (sc_key c)) /\ incl (opt_list (sk_user k)) (opt_list (sk_user (sc_key c))).
  Proof.
    intros M. unfold evolve_key_material. rewrite (CopyFacts.stream_key_made _ M). destruct (_ <? _); [discriminate|]. destruct (_ =? _).
    - intros V. apply Some_inj' in V. subst k. split; [exact M|]. split; [reflexivity|apply incl_refl].
    - intros V. destruct (evolve_loop_made R (n / sk_ppe (sc_key c) - sc_last c / sk_ppe (sc_key c)) _ M) as (k' & V' & G). rewrite V in V'. apply Some_inj' in V'. subst k'. exact G.
  Qed.
  Definition moved (c x : stream_ctx) : Prop :=
    usable_stream x /\ incl (user_data x) (user_data c) /\ (sc_iv x = sc_iv c \/ sc_iv x = option_map (fun g => snd (stream_iv_generate P g)) (sc_iv c)) /\ sc_last c <= sc_last x.
  Lemma moved_same c : usable_stream c -> moved c c.
  Proof. intros M. split; [exact M|]. split; [apply incl_refl|]. split; [left; reflexivity|apply N.le_refl]. Qed.
  Lemma generate_cipher g : si_cipher (snd (stream_iv_generate P g)) = si_cipher g /\ si_seed (snd (stream_iv_generate P g)) = si_seed g.
  Proof. unfold stream_iv_generate. destruct (hmac_create _ _ _ _); split; reflexivity. Qed.
  Lemma moved_to (R : hmac_ok P) c k n g refs : usable_stream c -> made_stream_key k -> ck_cipher (sk_cipher k) = ck_cipher (sk_cipher (sc_key c)) -> incl (opt_list (sk_user k)) (opt_list (sk_user (sc_key c))) ->
    sc_last c <= n -> (g = sc_iv c \/ g = option_map (fun g => snd (stream_iv_generate P g)) (sc_iv c)) ->
    moved c {| sc_key := k; sc_last := n; sc_dir := sc_dir c; sc_iv := g; sc_refs := refs |}.
  Proof.
    intros ((M1 & M2 & M3) & M4) MK CK UK L G. split; [|split; [exact UK|split; [exact G|exact L]]]. split.
    - split; [exact MK|]. cbn [sc_iv sc_dir]. destruct G as [->| ->]; [split; assumption|]. split.
      + intros x X. destruct (sc_iv c) as [y|]; [|discriminate X]. apply Some_inj' in X. subst x. unfold made_stream_iv. rewrite (proj2 (generate_cipher y)). exact (M2 _ eq_refl).
      + intros D X. apply (M3 D). destruct (sc_iv c); [discriminate X|reflexivity].
    - cbn [sc_iv sc_key]. rewrite CK. intros x X. destruct G as [->| ->]; [exact (M4 _ X)|]. destruct (sc_iv c) as [y|]; [|discriminate X]. apply Some_inj' in X. subst x. rewrite (proj1 (generate_cipher y)). exact (M4 _ eq_refl).
  Qed.
  Lemma nonce_spent_moved (R : hmac_ok P) c : usable_stream c -> moved c (nonce_spent P c).
  Proof. intros M. unfold nonce_spent, with_nonces. apply moved_to; try assumption; try reflexivity; [apply M|apply incl_refl|right; reflexivity]. Qed.
  Lemma encode_moved (R : hmac_ok P) c d a n : usable_stream c -> moved c (snd (stream_ctx_encode P c d a n)).
  Proof.
    intros M. unfold stream_ctx_encode. destruct d as [d|]; [|apply moved_same, M]. destruct ((n <=? sc_last c) || negb (direction_eqb (sc_dir c) ENCODE)) eqn:C; [apply moved_same, M|].
    destruct (sc_iv c) as [g|] eqn:G; [|apply moved_same, M]. destruct (stream_iv_generate P g) as [iv g'] eqn:V.
    assert (G' : Some g' = option_map (fun g => snd (stream_iv_generate P g)) (sc_iv c)) by (rewrite G; cbn [option_map]; rewrite V; reflexivity).
    destruct iv as [v|]; [destruct (evolve_key_material P c n) as [k|] eqn:Ek|].
    - destruct (evolve_made R _ _ _ (proj1 (proj1 M)) Ek) as (A & B & D). apply moved_to; try assumption; [lia|right; exact G'].
    - apply moved_to; try assumption; try reflexivity; [apply M|apply incl_refl|right; exact G'].
    - apply moved_to; try assumption; try reflexivity; [apply M|apply incl_refl|right; exact G'].
  Qed.
  Lemma decode_moved (R : hmac_ok P) c d a n : usable_stream c -> moved c (snd (stream_ctx_decode P c d a n)).
  Proof.
    intros M. unfold stream_ctx_decode. destruct d as [d|]; [|apply moved_same, M]. destruct ((n <=? sc_last c) || negb (direction_eqb (sc_dir c) DECODE)) eqn:C; [apply moved_same, M|].
    destruct (evolve_key_material P c n) as [k|] eqn:Ek; [|apply moved_same, M].
    destruct (evolve_made R _ _ _ (proj1 (proj1 M)) Ek) as (A & B & D). apply moved_to; try assumption; [lia|left; reflexivity].
  Qed.
  Lemma encrypted_iv pt aad k v s r : fst (aes256_encrypt P pt aad k (Some v) s) = Val r -> cr_iv r = v.
  Proof.
    destruct (aes256_encrypt P pt aad k (Some v) s) as [x s'] eqn:E. cbn [fst]. intros ->. destruct pt as [pt|]; [|discriminate E]. destruct k as [k|]; [|discriminate E]. apply EngineFacts.encrypt_Val in E. apply E.
  Qed.
  Lemma encode_val (R : hmac_ok P) c d a n r c' : stream_ctx_encode P c d a n = (Val r, c') -> sc_last c < n /\ sc_last c' = n /\
    exists g, sc_iv c = Some g /\ nonce_at P g 0 = Some (cr_iv r) /\ sc_iv c' = Some (snd (stream_iv_generate P g)).
  Proof.
    unfold stream_ctx_encode. destruct d as [d|]; [|discriminate]. destruct ((n <=? sc_last c) || negb (direction_eqb (sc_dir c) ENCODE)) eqn:C; [discriminate|].
    destruct (sc_iv c) as [g|] eqn:G; [|discriminate]. cbn [nonce_at]. destruct (stream_iv_generate P g) as [iv g'] eqn:V. destruct iv as [v|]; [|discriminate]. destruct (evolve_key_material P c n) as [k|]; [|discriminate].
    intros E. apply pair_equal_spec in E. destruct E as (E & <-). cbn [sc_last sc_iv]. split; [lia|]. split; [reflexivity|]. exists g. split; [reflexivity|]. rewrite V. split; [|reflexivity]. cbn [fst]. f_equal. symmetry. exact (encrypted_iv _ _ _ _ _ _ E).
  Qed.
  Lemma decode_val c d a n r c' : stream_ctx_decode P c d a n = (Val r, c') -> sc_last c < n /\ sc_last c' = n.
  Proof.
    unfold stream_ctx_decode. destruct d as [d|]; [|discriminate]. destruct ((n <=? sc_last c) || negb (direction_eqb (sc_dir c) DECODE)) eqn:C; [discriminate|].
    destruct (evolve_key_material P c n) as [k|]; [|discriminate]. intros E. apply pair_equal_spec in E. destruct E as (_ & <-). cbn [sc_last]. split; [lia|reflexivity].
  Qed.
  Lemma nonces_shift g i l : nonces_from (nonce_at P (snd (stream_iv_generate P g))) i l -> nonces_from (nonce_at P g) (S i) l.
  Proof.
    revert i. induction l as [|[r|] l IH]; intros i; cbn [nonces_from]; [trivial| |].
    - intros (V & Rst). split; [exact V|]. exact (IH _ Rst).
    - intros [V|V]; [left|right]; exact (IH _ V).
  Qed.
  Lemma nonces_used f l : forall i v, nonces_from f i l -> In v (used_nonces l) -> exists j, (i <= j < i + length l)%nat /\ f j = Some v.
  Proof.
    induction l as [|[r|] l IH]; intros i v F I; cbn [nonces_from used_nonces flat_map option_map opt_list app In length] in *; [destruct I| |].
    - destruct F as (V & F). destruct I as [<-|I]; [exists i; split; [lia|exact V]|]. destruct (IH _ _ F I) as (j & L & Vj). exists j. split; [lia|exact Vj].
    - destruct F as [F|F]; destruct (IH _ _ F I) as (j & L & Vj); exists j; (split; [lia|exact Vj]).
  Qed.
  Lemma nonces_distinct f l : forall i, (forall a b v, (i <= a < i + length l)%nat -> (i <= b < i + length l)%nat -> f a = Some v -> f b = Some v -> a = b) ->
    nonces_from f i l -> NoDup (used_nonces l).
  Proof.
    induction l as [|[r|] l IH]; intros i D F; cbn [nonces_from used_nonces flat_map option_map opt_list app length] in *; [apply NoDup_nil| |].
    - destruct F as (V & F). apply NoDup_cons.
      + intros I. destruct (nonces_used _ _ _ _ F I) as (j & L & Vj). assert (i = j) by (apply (D i j (cr_iv r)); try assumption; lia). lia.
      + apply (IH (S i)); [|exact F]. intros a b v La Lb. apply D; lia.
    - destruct F as [F|F]; eapply IH; try exact F; intros a b v La Lb; apply D; lia.
  Qed.
  Lemma rising_later n m l : n <= m -> rising m l -> rising n l.
  Proof. revert n m. induction l as [|[k [|]] l IH]; intros n m L; cbn [rising]; [trivial| |apply (IH _ _ L)]. intros (A & B). split; [lia|exact B]. Qed.
  Lemma first_nonces_now c n : incl (next_nonce P c) (first_nonces P c (S n)).
  Proof. unfold next_nonce, first_nonces. destruct (sc_iv c) as [g|]; [|apply incl_nil_l]. cbn [seq flat_map nonce_at]. apply incl_appl, incl_refl. Qed.
  Lemma first_nonces_moved c x n : moved c x -> incl (first_nonces P x n) (first_nonces P c (S n)).
  Proof.
    intros (_ & _ & G & _). unfold first_nonces. destruct G as [->| ->]; destruct (sc_iv c) as [g|]; cbn [option_map]; try apply incl_nil_l; intros z I; apply in_flat_map in I; destruct I as (i & I & Z); apply in_flat_map.
    - exists i. split; [|exact Z]. apply in_seq in I. apply in_seq. lia.
    - exists (S i). split; [|exact Z]. apply in_seq in I. apply in_seq. lia.
  Qed.
  Lemma same_place_trans a b c : same_place a b -> same_place b c -> same_place a c.
  Proof. intros (A1 & A2 & A3 & A4) (B1 & B2 & B3 & B4). repeat split; congruence. Qed.
  Lemma encode_session_rule (R0 : rand_ok P) (R : hmac_ok P) (A : aead_ok P) (C : ctr_ok P) calls : forall ctx (MC : usable_stream (sc_value ctx)) (MA : Forall encode_call_ok calls),
    use_rule (encode_args calls) (sc_cells ctx) (with_ctxs cr_cells) (encode_session_right P ctx calls)
      (user_data (sc_value ctx) ++ first_nonces P (sc_value ctx) (length calls)) [] [T_cipher_key; T_cipher_result] never_leaks_op (encode_session P ctx calls).
  Proof.
    induction calls as [|[[d a] n] calls IH]; intros ctx MC MA secret U W fails h0 X h Q HU HW E M K KE QA.
    - cbn [encode_session]. wstep. apply QA; [exact E|]. split; [repeat split|]. split; [left; reflexivity|]. split; [intros; exact I|exact I].
    - cbn [encode_session encode_args flat_map length app] in *. apply all_cons in M. destruct M as (M1 & M). apply all_cons in M. destruct M as (M2 & M). wstep.
      apply Forall_cons_iff in MA. destruct MA as (MA & MR).
      eapply (stream_encode_rule R0 R A C ctx d a n MC MA) with (W := W); [exact HU|exact HW|exact E| | |exact KE|].
      + apply Forall_cons; [exact M1|]. apply Forall_cons; [exact M2|apply Forall_nil].
      + refine (keeps_sub _ _ _ K _). apply incl_app; [apply incl_appl, incl_refl|apply incl_appr, first_nonces_now].
      + intros [r ctx1] h1 E1 (PL & V). cbn [fst snd] in *.
        assert (MV : moved (sc_value ctx) (sc_value ctx1)).
        { destruct r as [t|]; [|destruct V as [V|(_ & [V|[V|[V|[]]]])]].
          - replace (sc_value ctx1) with (snd (stream_ctx_encode P (sc_value ctx) (option_map b_bytes d) (option_map b_bytes a) n)) by (rewrite V; reflexivity). apply encode_moved; assumption.
          - replace (sc_value ctx1) with (snd (stream_ctx_encode P (sc_value ctx) (option_map b_bytes d) (option_map b_bytes a) n)) by (rewrite V; reflexivity). apply encode_moved; assumption.
          - rewrite <- V. apply moved_same. exact MC.
          - rewrite <- V. apply nonce_spent_moved; assumption.
          - rewrite <- V. apply encode_moved; assumption. }
        wstep. eapply (IH ctx1 (proj1 MV) MR) with (W := W) (X := cells_opt cr_cells r ++ X); [exact HU|exact HW| |exact M| |exact KE|].
        * unfold with_ctx in E1. cbn [fst snd] in E1. eapply ext_perm; [|exact E1]. solve_perm.
        * refine (keeps_sub _ _ _ K _). apply incl_app; [apply incl_appl; apply MV|apply incl_appr, first_nonces_moved, MV].
        * intros [l ctx2] h2 E2 (PL2 & V2 & N2 & R2). cbn [fst snd] in *. wstep. apply QA.
          { unfold with_ctxs in *. cbn [fst snd flat_map] in *. eapply ext_perm; [|exact E2]. solve_perm. }
          unfold encode_session_right. cbn [fst snd map]. split; [exact (same_place_trans _ _ _ PL PL2)|]. split; [|split].
          -- destruct V2 as [V2|F]; [|right; exact F]. cbn [encodes]. destruct r as [t|]; [|destruct V as [V|(F & _)]; [|right; exact F]]; left; rewrite V; cbn [fst snd answered]; rewrite <- V2; reflexivity.
          -- intros g G. destruct r as [t|]; cbn [option_map nonces_from].
             ++ apply encode_val in V; [|exact R]. destruct V as (_ & _ & g1 & G1 & NV & G2). rewrite G in G1. apply Some_inj' in G1. subst g1. split; [exact NV|]. apply nonces_shift. apply N2. exact G2.
             ++ destruct MV as (_ & _ & [G1|G1] & _); rewrite G in G1; [left; exact (N2 _ G1)|]. right. apply nonces_shift. apply N2. exact G1.
          -- unfold numbered in *. cbn [encode_numbers map snd combine rising]. destruct r as [t|].
             ++ apply encode_val in V; [|exact R]. destruct V as (L & L1 & _). split; [exact L|]. change (hsc_last ctx1) with (sc_last (sc_value ctx1)) in R2. rewrite L1 in R2. exact R2.
             ++ refine (rising_later _ _ _ _ R2). apply MV.
  Qed.
  Lemma decode_session_rule (R : hmac_ok P) (A : aead_len_ok P) (C : ctr_ok P) calls : forall ctx (MC : usable_stream (sc_value ctx)) (MA : Forall decode_call_ok calls),
    use_rule (decode_args calls) (sc_cells ctx) (with_ctxs buf_cells) (decode_session_right P ctx calls)
      (user_data (sc_value ctx)) [] [T_cipher_key] never_leaks_op (decode_session P ctx calls).
  Proof.
    induction calls as [|[[[d a] n] draft] calls IH]; intros ctx MC MA secret U W fails h0 X h Q HU HW E M K KE QA.
    - cbn [decode_session]. wstep. apply QA; [exact E|]. split; [repeat split|]. split; [left; reflexivity|exact I].
    - cbn [decode_session decode_args flat_map app] in *. apply all_cons in M. destruct M as (M1 & M). apply all_cons in M. destruct M as (M2 & M). wstep.
      apply Forall_cons_iff in MA. destruct MA as (MA & MR).
      eapply (stream_decode_rule R A C ctx d a n draft (proj1 MC) MA) with (W := W); [exact HU|exact HW|exact E| |exact K|exact KE|].
      + apply Forall_cons; [exact M1|]. apply Forall_cons; [exact M2|apply Forall_nil].
      + intros [r ctx1] h1 E1 (PL & V). cbn [fst snd] in *.
        assert (MV : moved (sc_value ctx) (sc_value ctx1)).
        { destruct r as [t|]; [|destruct V as [V|(_ & [V|[V|[]]])]].
          - replace (sc_value ctx1) with (snd (stream_ctx_decode P (sc_value ctx) (option_map cr_value d) (option_map b_bytes a) n)) by (rewrite V; reflexivity). apply decode_moved; assumption.
          - replace (sc_value ctx1) with (snd (stream_ctx_decode P (sc_value ctx) (option_map cr_value d) (option_map b_bytes a) n)) by (rewrite V; reflexivity). apply decode_moved; assumption.
          - rewrite <- V. apply moved_same. exact MC.
          - rewrite <- V. apply decode_moved; assumption. }
        wstep. eapply (IH ctx1 (proj1 MV) MR) with (W := W) (X := cells_opt buf_cells r ++ X); [exact HU|exact HW| |exact M| |exact KE|].
        * unfold with_ctx in E1. cbn [fst snd] in E1. eapply ext_perm; [|exact E1]. solve_perm.
        * refine (keeps_sub _ _ _ K _). apply MV.
        * intros [l ctx2] h2 E2 (PL2 & V2 & R2). cbn [fst snd] in *. wstep. apply QA.
          { unfold with_ctxs in *. cbn [fst snd flat_map] in *. eapply ext_perm; [|exact E2]. solve_perm. }
          unfold decode_session_right. cbn [fst snd map]. split; [exact (same_place_trans _ _ _ PL PL2)|]. split.
          -- destruct V2 as [V2|F]; [|right; exact F]. cbn [decodes]. destruct r as [t|]; [|destruct V as [V|(F & _)]; [|right; exact F]]; left; rewrite V; cbn [fst snd answered]; rewrite <- V2; reflexivity.
          -- unfold numbered in *. cbn [decode_numbers map combine rising]. destruct r as [t|].
             ++ apply decode_val in V. destruct V as (L & L1). split; [exact L|]. change (hsc_last ctx1) with (sc_last (sc_value ctx1)) in R2. rewrite L1 in R2. exact R2.
             ++ refine (rising_later _ _ _ _ R2). apply MV.
  Qed.

  (* what happened in a session that came to an end *)
  Lemma ran {A} args owned (left : A -> list cell) right public exposed untested leak (op : H A) fails h a h' :
    use_rule args owned left right public exposed untested leak op -> heap_ok h -> in_memory h owned -> all_in_memory h args -> separate args owned ->
    op fails h = Some (a, h') -> right fails a.
  Proof.
    intros R OK M MA S V. pose proof (use_sound _ _ _ _ _ _ _ _ _ R (fun _ => False) fails h OK M MA S) as G. rewrite V in G.
    destruct G as (L & _ & _ & _ & G); [split; [intros n Z; exact Z|intros c I Z; exact Z]|intros _; split; [intros n Z; exact Z|intros c I Z; exact Z]|exact G].
  Qed.
  Lemma advances_never {T V} (value : T -> V) ctx pure stages a : advances value ctx pure stages never a -> advances_ok value ctx pure a.
  Proof. intros (S & G). split; [exact S|]. destruct (fst a); [exact G|]. destruct G as [G|(F & _)]; [exact G|destruct (never_fails F)]. Qed.
  Lemma encode_session_never ctx calls a : encode_session_right P ctx calls never a -> encode_session_ok P ctx calls a.
  Proof. intros (S & G & _). split; [exact S|]. destruct G as [G|F]; [exact G|destruct (never_fails F)]. Qed.
  Lemma decode_session_never ctx calls a : decode_session_right P ctx calls never a -> decode_session_ok P ctx calls a.
  Proof. intros (S & G & _). split; [exact S|]. destruct G as [G|F]; [exact G|destruct (never_fails F)]. Qed.
  Lemma ctx_leak_never d : ~ ctx_leak d never.
  Proof. destruct d; [exact never_fails|intros []]. Qed.
  Lemma session_nonces (R0 : rand_ok P) (R : hmac_ok P) (A : aead_ok P) (C : ctr_ok P) ctx calls fails h answers ctx' h' :
    usable_stream (sc_value ctx) -> Forall encode_call_ok calls -> heap_ok h -> in_memory h (sc_cells ctx) -> all_in_memory h (encode_args calls) -> separate (encode_args calls) (sc_cells ctx) ->
    encode_session P ctx calls fails h = Some ((answers, ctx'), h') ->
    forall g, sc_iv (sc_value ctx) = Some g -> nonces_from (nonce_at P g) 0 (map (option_map cr_value) answers).
  Proof. intros MC MA OK M MM S V. pose proof (ran _ _ _ _ _ _ _ _ _ _ _ _ _ (encode_session_rule R0 R A C calls ctx MC MA) OK M MM S V) as (_ & _ & N & _). exact N. Qed.
  Lemma session_length ctx calls : forall fails h answers ctx' h', encode_session P ctx calls fails h = Some ((answers, ctx'), h') -> length answers = length calls.
  Proof.
    revert ctx. induction calls as [|[[d a] n] calls IH]; intros ctx fails h answers ctx' h' V; cbn [encode_session] in V.
    - apply Some_inj' in V. apply pair_equal_spec in V. destruct V as (V & _). apply pair_equal_spec in V. destruct V as (<- & _). reflexivity.
    - unfold hbind in V. destruct (h_stream_ctx_encode P ctx d a n fails h) as [[[r c1] h1]|]; [|discriminate V]. cbn [fst snd] in V.
      destruct (encode_session P c1 calls fails h1) as [[[l c2] h2]|] eqn:W; [|discriminate V]. apply Some_inj' in V. apply pair_equal_spec in V. destruct V as (V & _). apply pair_equal_spec in V. destruct V as (<- & _).
      cbn [fst length]. f_equal. exact (IH _ _ _ _ _ _ W).
  Qed.
  Lemma session_no_repeats (R0 : rand_ok P) (R : hmac_ok P) (A : aead_ok P) (C : ctr_ok P) ctx calls fails h answers ctx' h' g :
    usable_stream (sc_value ctx) -> Forall encode_call_ok calls -> heap_ok h -> in_memory h (sc_cells ctx) -> all_in_memory h (encode_args calls) -> separate (encode_args calls) (sc_cells ctx) ->
    encode_session P ctx calls fails h = Some ((answers, ctx'), h') -> sc_iv (sc_value ctx) = Some g ->
    (forall i j v, (i < length calls)%nat -> (j < length calls)%nat -> nonce_at P g i = Some v -> nonce_at P g j = Some v -> i = j) ->
    NoDup (used_nonces (map (option_map cr_value) answers)).
  Proof.
    intros MC MA OK M MM S V G D. eapply nonces_distinct; [|exact (session_nonces R0 R A C _ _ _ _ _ _ _ MC MA OK M MM S V g G)].
    rewrite map_length, (session_length _ _ _ _ _ _ _ V). intros a b v La Lb. apply D; lia.
  Qed.
  Lemma session_encode_rises (R0 : rand_ok P) (R : hmac_ok P) (A : aead_ok P) (C : ctr_ok P) ctx calls fails h answers ctx' h' :
    usable_stream (sc_value ctx) -> Forall encode_call_ok calls -> heap_ok h -> in_memory h (sc_cells ctx) -> all_in_memory h (encode_args calls) -> separate (encode_args calls) (sc_cells ctx) ->
    encode_session P ctx calls fails h = Some ((answers, ctx'), h') -> rising (hsc_last ctx) (numbered (encode_numbers calls) answers).
  Proof. intros MC MA OK M MM S V. pose proof (ran _ _ _ _ _ _ _ _ _ _ _ _ _ (encode_session_rule R0 R A C calls ctx MC MA) OK M MM S V) as (_ & _ & _ & N). exact N. Qed.
  Lemma session_decode_rises (R : hmac_ok P) (A : aead_len_ok P) (C : ctr_ok P) ctx calls fails h answers ctx' h' :
    usable_stream (sc_value ctx) -> Forall decode_call_ok calls -> heap_ok h -> in_memory h (sc_cells ctx) -> all_in_memory h (decode_args calls) -> separate (decode_args calls) (sc_cells ctx) ->
    decode_session P ctx calls fails h = Some ((answers, ctx'), h') -> rising (hsc_last ctx) (numbered (decode_numbers calls) answers).
  Proof. intros MC MA OK M MM S V. pose proof (ran _ _ _ _ _ _ _ _ _ _ _ _ _ (decode_session_rule R A C calls ctx MC MA) OK M MM S V) as (_ & _ & N). exact N. Qed.
End stream.
