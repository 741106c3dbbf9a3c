(* Rules for the functions of Model/HeapGenerate.v. *)
From Verif.Base Require Import Bytes Monad.
From Verif.Model Require Import Buffer Cipher Ecdsa Kdf Prims Engine Fingerprint Identity Node Keys Stream Handshake Ctx Proto Heap HeapObjects HeapMessages HeapParse HeapWrite HeapEngine HeapProtocol HeapGenerate.
From Verif.Spec Require Import HeapSpec HeapObjectSpec BufferSpec CopySpec HeapParseSpec HeapWriteSpec HeapEngineSpec HeapProtocolSpec HeapGenerateSpec.
From Verif.Proofs Require Import BufferFacts HeapFacts HeapObjectFacts HeapMessageFacts HeapCtxFacts HeapParseFacts HeapWriteFacts HeapEngineFacts HeapKdfFacts HeapProtocolFacts HeapPacketFacts HeapReadingFacts.
From Coq Require Import Permutation ZifyBool ZifyNat ZifyN.
Local Open Scope N_scope.

Ltac laid := cbn [hck_addr hck_data hkey_addr hkey_pub hkey_pri hsig_addr hsig_data hfp_addr hfp_data hid_addr hid_identifier hid_key hid_sig hkp_addr hkp_key hkp_sig hrk_addr hrk_sig hrk_node hrk_remote
  hsk_addr hsk_local hsk_remote hdi_addr hdi_dev hdi_system hdi_msg hdi_srv hst_addr hst_cipher hst_evo hst_user hsi_addr hsi_seed htr_addr htr_secret hsc_addr hsc_key hsc_iv
  hch_addr hch_root hch_node hch_cache hcx_addr hcx_dev hcx_chain hcx_storage hcx_header hgr_addr hgr_ctx hgr_recovery hgr_root cells_opt]; solve_perm.
Ltac there ::= match goal with QS : forall t h1, ext _ _ _ _ h1 -> _ -> ?Q (Some t) h1, E : ext _ _ _ _ ?h |- ?Q (Some _) ?h =>
  apply QS; [eapply ext_perm; [|exact E]; first [solve [solve_perm]|solve [unfold fp_cells; laid]|solve [unfold id_cells; laid]|solve [unfold kp_cells; laid]|solve [unfold rk_cells; laid]
    |solve [unfold sk_cells, ck_cells; laid]|solve [unfold sk_cells; laid]|solve [unfold di_cells; laid]|solve [unfold st_cells, ck_cells; laid]|solve [unfold st_cells; laid]|solve [unfold si_cells; laid]|solve [unfold tr_cells; laid]
    |solve [unfold sc_cells; laid]|solve [unfold ch_cells; laid]|solve [unfold cx_cells; laid]|solve [unfold gr_cells; laid]]|] end.
(* the parts of a part *)
Ltac inner x cells := match goal with G : in_memory _ (cells x) |- _ => parts G cells end.
(* releasing something on the way out; what may be readable is part of what K allows *)
Ltac rid R t := repeat wstep; drop R t.
Ltac part_of K := refine (keeps_sub _ _ _ K _); let z := fresh "z" in let I := fresh "I" in intros z I; rewrite ?in_app_iff in *; cbn [In] in *; tauto.
Lemma cipher_key_make_wp c b secret (U W : Prop) fails h0 X h (Q : option hck -> heap -> Prop) :
  (forall n ty, In ty [T_cipher_key] -> fails n ty = true -> U) -> ext secret W h0 (buf_cells b ++ X) h ->
  (cipher_key_create c (Some (b_bytes b)) = None -> Q None h) ->
  (forall k h1, ext secret W h0 (ck_cells k ++ X) h1 -> cipher_key_create c (Some (b_bytes b)) = Some (ck_value k) -> Q (Some k) h1) ->
  wp U fails (h_cipher_key_create c (Some b)) h Q.
Proof.
  intros HU E QN QS. unfold h_cipher_key_create, cipher_key_create in *. inside b buf_cells. wstep. wstep. destruct (blen (b_bytes b) =? key_len c); cbn [negb] in *.
  - wstep. wstep; [used|]. wstep. apply QS; [|reflexivity]. unfold ck_cells. cbn [hck_addr hck_data]. eapply ext_perm; [|exact E0]. solve_perm.
  - wstep. apply QN. reflexivity.
Qed.
Ltac make_key b :=
  at_heap ltac:(fun E => pull E (buf_cells b); eapply cipher_key_make_wp; [try untested_tac|exact E|let N := fresh "N" in intros N|let k := fresh "k" in let h := fresh "h" in let E' := fresh "E" in let V := fresh "V" in intros k h E' V; clear E]).
Ltac section :=
  at_heap ltac:(fun E => let E' := fresh "E" in let h := fresh "h" in let N := fresh "N" in let F := fresh "F" in let V := fresh "V" in let b := fresh "b" in
    eapply buffer_section_wp; [exact E|assumption|intros h E' [N|F]; clear E|intros b h E' V; clear E]).
Ltac rel b := repeat wstep; release b.
Ltac out := repeat wstep; gone.
Lemma here_bytes h b : in_memory h (buf_cells b) -> mem h (b_addr b) = Some [] /\ mem h (b_data b) = Some (b_bytes b).
Proof.
  intros M. unfold buf_cells in M. apply in_memory_app in M. destruct M as (M1 & M2). apply in_memory_struct in M1. split; [exact M1|]. apply (proj2 M2). left. reflexivity.
Qed.
Section generate.
  Context (P : prims).

  (* --- the draws --- *)
  Lemma bind_eq {A B} (m : M A) (k : A -> M B) s : fst (mbind m k s) = rbind (fst (m s)) (fun x => fst (k x (snd (m s)))).
  Proof. unfold mbind. destruct (m s) as [[x| |] s1]; reflexivity. Qed.
  Lemma rand_key_draw c s : snd (ec_rand_key P c s) = S s.
  Proof. unfold ec_rand_key. destruct (p_ec_gen P s) as [(pub & pri)|]; reflexivity. Qed.
  Lemma sign_draw k d g s v : fst (ec_sign P k d g s) = Val v -> snd (ec_sign P k d g s) = S s.
  Proof.
    unfold ec_sign, mres. destruct k as [k|]; [|discriminate]. destruct d as [d|]; [|discriminate]. destruct (ek_pri k); [|discriminate]. destruct (p_d2i P _); [reflexivity|discriminate].
  Qed.
  Lemma identity_sign_draw x d s v : fst (identity_sign P x d s) = Val v -> snd (identity_sign P x d s) = S s.
  Proof. unfold identity_sign, mres. destruct x as [x|]; [|discriminate]. destruct d as [d|]; [|discriminate]. destruct (ek_pri (id_key x)); [|discriminate]. apply sign_draw. Qed.
  Lemma random_draw len s v : fst (crypto_random P len s) = Val v -> snd (crypto_random P len s) = S s.
  Proof. unfold crypto_random, mres. destruct (INT_MAX <? len); [discriminate|]. destruct (negb _); [discriminate|]. reflexivity. Qed.
  Lemma cipher_key_draw c s v : fst (cipher_key_random P c s) = Val v -> snd (cipher_key_random P c s) = S s.
  Proof.
    unfold cipher_key_random. rewrite bind_eq. unfold mbind. pose proof (random_draw (key_len c) s) as D. destruct (crypto_random P (key_len c) s) as [[k| |] s1]; [|discriminate..].
    intros _. exact (D _ eq_refl).
  Qed.
  Lemma random_drawn len s v : fst (crypto_random P len s) = Val v -> drawn P s len = [v].
  Proof.
    unfold crypto_random, mres, drawn. destruct (INT_MAX <? len); [discriminate|]. destruct (negb _); [discriminate|]. cbn [fst]. destruct (p_rand P s len); [|discriminate]. intros V. apply Val_inj in V. subst. reflexivity.
  Qed.

  Lemma identity_sign_rule (R : sign_ok P) x data s : op_rule sig_cells sig_value [oc id_cells x; oc buf_cells data]
    (fst (identity_sign P (option_map id_value x) (option_map b_bytes data) s)) [] [] [T_openssl; T_ecdsa_result] (sign_leak P (option_map hid_key x)) (h_identity_sign P x data s).
  Proof.
    begin. unfold h_identity_sign, identity_sign in *. destruct x as [x|]; [|wstep; gone; left; reflexivity]. destruct data as [d|]; [|wstep; gone; left; reflexivity].
    cbn [oc option_map] in *. parts M0 id_cells. inner (hid_key x) key_cells. do 4 wstep.
    change (ek_pri (id_key (id_value x))) with (option_map b_bytes (hkey_pri (hid_key x))) in *. destruct (hkey_pri (hid_key x)) eqn:D; cbn [option_map] in *; [|wstep; gone; left; reflexivity].
    change (id_key (id_value x)) with (key_value (hid_key x)) in *.
    eapply (ec_sign_rule P R (Some (hid_key x)) (Some d) SHA512 s) with (W := W); [exact HU|exact HB|exact HW|exact OK|arguments|exact K|exact KE|exact QN|exact QS].
  Qed.
  Lemma node_gen_eq r identifier s : id_type r = ID_ROOT -> fst (node_identity_gen P (Some r) identifier s) =
    rbind (fst (ec_rand_key P P521 s)) (fun k => rbind (fst (identity_sign P (Some r) (Some (ek_pub k)) (S s))) (fun g =>
      rbind (match identifier with Some i => lift (buffer_copy (Some i)) | None => fst (crypto_random P IDENTIFIER_LEN (S (S s))) end) (fun i =>
        lift (identity_create ID_NODE (Some i) (Some k) (Some g))))).
  Proof.
    intros T. unfold node_identity_gen. rewrite T, bind_eq, rand_key_draw. destruct (fst (ec_rand_key P P521 s)) as [k| |]; [|reflexivity..]. cbn [rbind]. rewrite bind_eq.
    pose proof (identity_sign_draw (Some r) (Some (ek_pub k)) (S s)) as D. destruct (identity_sign P (Some r) (Some (ek_pub k)) (S s)) as [[g| |] s2]; [|reflexivity..]. cbn [fst snd rbind] in *.
    specialize (D _ eq_refl). subst s2. rewrite bind_eq. destruct identifier as [i|]; reflexivity.
  Qed.
  Definition identifier_rule (R : rand_ok P) identifier s : op_rule buf_cells b_bytes [oc buf_cells identifier]
    (match option_map b_bytes identifier with Some i => lift (buffer_copy (Some i)) | None => fst (crypto_random P IDENTIFIER_LEN s) end) [] [] buffer_kinds never_leaks_op
    (match identifier with Some i => h_buffer_copy (Some i) | None => h_crypto_random P IDENTIFIER_LEN s end).
  Proof.
    begin. destruct identifier as [i|]; cbn [option_map oc] in *.
    - copy i; [gone; left; cbn [buffer_copy]; rewrite N; reflexivity|gone; right; sfailed|]. there. cbn [buffer_copy]. rewrite V, B. reflexivity.
    - eapply (crypto_random_rule P R IDENTIFIER_LEN s) with (W := W); [exact HU|exact HB|exact HW|exact OK|arguments|exact K|exact KE|exact QN|exact QS].
  Qed.
  Lemma node_identity_gen_rule (R : sign_ok P) (R1 : rand_ok P) r identifier s : op_rule id_cells id_value [oc id_cells r; oc buf_cells identifier]
    (fst (node_identity_gen P (option_map id_value r) (option_map b_bytes identifier) s))
    (node_gen_public P (option_map id_value r) (option_map b_bytes identifier) s) [] (T_openssl :: T_ec_key :: T_ecdsa_result :: buffer_kinds) (sign_leak P (option_map hid_key r))
    (h_node_identity_gen P r identifier s).
  Proof.
    begin. unfold h_node_identity_gen. destruct r as [r|]; [|wstep; gone; left; reflexivity]. cbn [oc option_map] in *. parts M0 id_cells. wstep. wstep.
    destruct (hid_type r) eqn:T; [|wstep; gone; left; cbn [node_identity_gen]; change (id_type (id_value r)) with (hid_type r); rewrite T; reflexivity].
    rewrite (node_gen_eq (id_value r)) in * by exact T. unfold node_gen_public, new_signature in K. call (ec_rand_key_rule P P521 s).
    - intros V. apply HB. rewrite V. reflexivity.
    - wstep. gone. left. rewrite N. reflexivity.
    - wstep. gone. right. exact F.
    - rewrite V in *. cbn [rbind] in *. inside t key_cells. wstep. call (identity_sign_rule R (Some r) (Some (hkey_pub t)) (S s)); cbn [option_map] in *.
      + intros V1. apply HB. change (ek_pub (key_value t)) with (b_bytes (hkey_pub t)). rewrite V1. reflexivity.
      + drop ec_key_destroy_rule t; [exact K0|]. gone. left. change (ek_pub (key_value t)) with (b_bytes (hkey_pub t)). rewrite N. reflexivity.
      + drop ec_key_destroy_rule t; [exact K0|]. gone. right. exact F.
      + change (ek_pub (key_value t)) with (b_bytes (hkey_pub t)) in *. rewrite V0 in *. cbn [rbind plain_of] in *. wstep. 
        call (identifier_rule R1 identifier (S (S s))).
        * intros V1. apply HB. rewrite V1. reflexivity.
        * rid ec_key_destroy_rule t; [exact K0|]. rid ecdsa_result_destroy_rule t0; [part_of K|]. gone. left. rewrite N. reflexivity.
        * rid ec_key_destroy_rule t; [exact K0|]. rid ecdsa_result_destroy_rule t0; [part_of K|]. gone. right. exact F.
        * assert (KI : keeps_secret secret [b_bytes t1]).
          { destruct identifier as [i|]; cbn [option_map buffer_copy] in *; [apply lift_val, buffer_create_same in V1; rewrite V1; part_of K|]. rewrite (random_drawn _ _ _ V1) in K. part_of K. }
          rewrite V1 in *. cbn [rbind identity_create] in *. inside t1 buf_cells. unfold h_identity_create. wstep. wstep. wstep.
          destruct (MAX_IDENTIFIER_LEN <=? blen (b_bytes t1)).
          -- rid ec_key_destroy_rule t; [exact K0|]. rid ecdsa_result_destroy_rule t0; [part_of K|]. rid buffer_destroy_rule t1; [exact KI|]. gone. left. reflexivity.
          -- wstep. wstep.
             ++ rid ec_key_destroy_rule t; [exact K0|]. rid ecdsa_result_destroy_rule t0; [part_of K|]. rid buffer_destroy_rule t1; [exact KI|]. gone. right. sfailed.
             ++ repeat wstep. there. reflexivity.
  Qed.

  Lemma keypair_gen_eq n x s : fst (keypair_generate_identity P n x s) =
    rbind (fst (ec_rand_key P P521 s)) (fun k => rbind (fst (identity_sign P x (Some (ek_pub k)) (S s))) (fun g => Val {| kp_identifier := n; kp_key := k; kp_signature := Some g |})).
  Proof.
    unfold keypair_generate_identity. rewrite bind_eq, rand_key_draw. destruct (fst (ec_rand_key P P521 s)) as [k| |]; [|reflexivity..]. cbn [rbind]. rewrite bind_eq. reflexivity.
  Qed.
  Lemma keypair_generate_identity_rule (R : sign_ok P) n x s : op_rule kp_cells kp_value [oc id_cells x] (fst (keypair_generate_identity P n (option_map id_value x) s))
    [] (new_signature P (option_map id_value x) s) [T_openssl; T_ec_key; T_ecdsa_result] (sign_leak P (option_map hid_key x)) (h_keypair_generate_identity P n x s).
  Proof.
    begin. unfold h_keypair_generate_identity. rewrite keypair_gen_eq in *. unfold new_signature in KE. call (ec_rand_key_rule P P521 s).
    - intros V. apply HB. rewrite V. reflexivity.
    - wstep. gone. left. rewrite N. reflexivity.
    - wstep. gone. right. exact F.
    - rewrite V in *. cbn [rbind] in *. inside t key_cells. wstep. change (ek_pub (key_value t)) with (b_bytes (hkey_pub t)) in *. call (identity_sign_rule R x (Some (hkey_pub t)) (S s)); cbn [option_map] in *.
      + intros V1. apply HB. rewrite V1. reflexivity.
      + rid ec_key_destroy_rule t; [exact K0|]. gone. left. rewrite N. reflexivity.
      + rid ec_key_destroy_rule t; [exact K0|]. gone. right. exact F.
      + rewrite V0 in *. cbn [rbind plain_of] in *. unfold h_keypair_create. wstep. wstep. wstep.
        * rid ec_key_destroy_rule t; [exact K0|]. rid ecdsa_result_destroy_rule t0; [apply KE; sfailed|]. gone. right. sfailed.
        * repeat wstep. there. reflexivity.
  Qed.
  Lemma ctx_ephemeral_keypair_gen_rule (R : sign_ok P) c n s : op_rule kp_cells kp_value [oc cx_cells c] (fst (ctx_ephemeral_keypair_gen P (option_map cx_value c) n s))
    [] (new_signature P (option_map (fun x => ch_node (cx_chain x)) (option_map cx_value c)) s) [T_openssl; T_ec_key; T_ecdsa_result]
    (sign_leak P (option_map (fun x => hid_key (hch_node (hcx_chain x))) c)) (h_ctx_ephemeral_keypair_gen P c n s).
  Proof.
    begin. unfold h_ctx_ephemeral_keypair_gen. destruct c as [c|]; [|wstep; gone; left; reflexivity]. cbn [oc option_map ctx_ephemeral_keypair_gen] in *. parts M0 cx_cells. inner (hcx_chain c) ch_cells. do 4 wstep.
    eapply (keypair_generate_identity_rule R n (Some (hch_node (hcx_chain c))) s) with (W := W); [exact HU|exact HB|exact HW|exact OK|arguments|exact K|exact KE|exact QN|exact QS].
  Qed.

  (* --- storage keys --- *)
  Lemma root_keys_generate_eq s : fst (root_keys_generate P s) =
    rbind (fst (cipher_key_random P default_cipher s)) (fun a => rbind (fst (cipher_key_random P default_cipher (S s))) (fun b =>
      rbind (fst (ec_rand_key P P521 (S (S s)))) (fun k => Val {| rk_signature := k; rk_node := a; rk_remote := b |}))).
  Proof.
    unfold root_keys_generate. rewrite bind_eq. pose proof (cipher_key_draw default_cipher s) as D. destruct (cipher_key_random P default_cipher s) as [[a| |] s1]; [|reflexivity..].
    specialize (D _ eq_refl). cbn [fst snd rbind] in *. subst s1. rewrite bind_eq. pose proof (cipher_key_draw default_cipher (S s)) as D. destruct (cipher_key_random P default_cipher (S s)) as [[b| |] s1]; [|reflexivity..].
    specialize (D _ eq_refl). cbn [fst snd rbind] in *. subst s1. rewrite bind_eq. unfold mtry. destruct (ec_rand_key P P521 (S (S s))) as [[k| |] s1]; reflexivity.
  Qed.
  Lemma root_keys_generate_rule (R : rand_ok P) s : op_rule rk_cells rk_value [] (fst (root_keys_generate P s)) [] [] [T_buffer; T_data; T_cipher_key; T_openssl; T_ec_key] never_leaks_op
    (h_root_keys_generate P s).
  Proof.
    begin. unfold h_root_keys_generate. rewrite root_keys_generate_eq in *. call (cipher_key_random_rule P R default_cipher s).
    - intros V. apply HB. rewrite V. reflexivity.
    - wstep. gone. left. rewrite N. reflexivity.
    - wstep. gone. right. exact F.
    - rewrite V in *. cbn [rbind] in *. wstep. call (cipher_key_random_rule P R default_cipher (S s)).
      + intros V0. apply HB. rewrite V0. reflexivity.
      + rid cipher_key_destroy_rule t; [exact K0|]. gone. left. rewrite N. reflexivity.
      + rid cipher_key_destroy_rule t; [exact K0|]. gone. right. exact F.
      + rewrite V0 in *. cbn [rbind] in *. wstep. call (ec_rand_key_rule P P521 (S (S s))).
        * intros V1. apply HB. rewrite V1. reflexivity.
        * unfold h_root_keys_create. rid cipher_key_destroy_rule t; [exact K0|]. rid cipher_key_destroy_rule t0; [exact K0|]. unfold h_ec_key_destroy. repeat wstep. gone. left. rewrite N. reflexivity.
        * unfold h_root_keys_create. rid cipher_key_destroy_rule t; [exact K0|]. rid cipher_key_destroy_rule t0; [exact K0|]. unfold h_ec_key_destroy. repeat wstep. gone. right. exact F.
        * rewrite V1 in *. cbn [rbind] in *. unfold h_root_keys_create. wstep. wstep. wstep.
          -- rid cipher_key_destroy_rule t; [exact K0|]. rid cipher_key_destroy_rule t0; [exact K0|]. rid ec_key_destroy_rule t1; [exact K0|]. gone. right. sfailed.
          -- repeat wstep. there. reflexivity.
  Qed.
  Lemma root_keys_localize_rule (R : sha_ok P) k i (MK : if_set made_root_keys (option_map rk_value k)) : op_rule sk_cells sk_value [oc rk_cells k; oc di_cells i]
    (lift (root_keys_localize P (option_map rk_value k) (option_map di_value i))) [] [] [T_buffer; T_data; T_cipher_key] never_leaks_op (h_root_keys_localize P k i).
  Proof.
    begin. unfold h_root_keys_localize. destruct k as [k|]; [|wstep; gone; left; reflexivity]. destruct i as [i|]; [|wstep; gone; left; reflexivity]. cbn [oc option_map] in *.
    parts M0 rk_cells. parts M1 di_cells. inner (hrk_node k) ck_cells. change (cells_opt buf_cells) with (oc buf_cells) in *. destruct (MK _ eq_refl) as (_ & _ & MR). cbn [rk_value rk_remote] in MR. wstep. wstep.
    unfold root_keys_localize in *. change (rk_remote (rk_value k)) with (ck_value (hrk_remote k)) in *. change (ck_data (rk_node (rk_value k))) with (b_bytes (hck_data (hrk_node k))) in *.
    change (di_system_salt (di_value i)) with (option_map b_bytes (hdi_system i)) in *. change (ck_cipher (rk_node (rk_value k))) with (hck_cipher (hrk_node k)) in *.
    rewrite (CopyFacts.cipher_key_made _ MR) in *. wstep. call (copy_op _ _ _ _ _ _ _ (hrk_remote k) cipher_key_copy_rule MR).
    - discriminate.
    - discriminate N.
    - wstep. gone. right. exact F.
    - apply Val_inj in V. do 5 wstep. call (sha2_rule P R (Some (hck_data (hrk_node k))) (hdi_system i) SHA256); cbn [option_map] in *.
      + intros G. destruct (lift_ub _ G).
      + apply lift_null in N. rewrite N in *. rid cipher_key_destroy_rule t; [exact K0|]. gone. left. reflexivity.
      + rid cipher_key_destroy_rule t; [exact K0|]. gone. right. exact F.
      + apply lift_val in V0. rewrite V0 in *. wstep. make_key t0.
        * rewrite N in *. rid cipher_key_destroy_rule t; [exact K0|]. repeat wstep. wipe t0. gone. left. reflexivity.
        * rewrite V1 in *. unfold h_storage_keys_create. wstep. wstep. wstep.
          -- rid cipher_key_destroy_rule k0; [exact K0|]. rid cipher_key_destroy_rule t; [exact K0|]. gone. right. sfailed.
          -- repeat wstep. there. unfold sk_value. cbn [storage_keys_create hsk_local hsk_remote]. rewrite V. reflexivity.
  Qed.

  (* --- device information --- *)
  Lemma halves d : blen d = 64 -> buffer_copy_section d 0 32 = Some (firstn 32 d) /\ buffer_copy_section d 32 32 = Some (skipn 32 d).
  Proof.
    intros L. unfold buffer_copy_section, section_ok. rewrite L. split; [reflexivity|]. change (Some (slice d 32 32) = Some (skipn 32 d)). f_equal. unfold slice. apply firstn_all2. rewrite skipn_length. unfold blen in L. lia.
  Qed.
  Lemma dev_derive_wp (R : sha_ok P) salt sid secret (U W : Prop) fails h0 X h (Q : option hdi -> heap -> Prop) :
    (forall n ty, In ty buffer_kinds -> fails n ty = true -> U) -> ext secret W h0 (buf_cells salt ++ X) h -> in_memory h0 (buf_cells sid) ->
    keeps_secret secret [p_sha P SHA512 (b_bytes sid ++ b_bytes salt)] ->
    (some_failure fails -> keeps_secret secret [p_sha P SHA256 (b_bytes sid); firstn 32 (p_sha P SHA512 (b_bytes sid ++ b_bytes salt)); skipn 32 (p_sha P SHA512 (b_bytes sid ++ b_bytes salt))]) ->
    (forall h1, ext secret W h0 (buf_cells salt ++ X) h1 -> some_failure fails -> Q None h1) ->
    (forall t h1, ext secret W h0 (di_cells t ++ X) h1 -> dev_info_derive P (Some (b_bytes salt)) (Some (b_bytes sid)) = Some (di_value t) -> Q (Some t) h1) ->
    wp U fails (h_dev_info_derive P (Some salt) (Some sid)) h Q.
  Proof.
    intros HU E M K KE QN QS. pose proof (keeps_none _ _ K) as K0. unfold h_dev_info_derive, dev_info_derive in *. call (sha2_rule P R (Some sid) None SHA256); cbn [option_map sha2 lift obytes] in *.
    - discriminate.
    - discriminate N.
    - wstep. apply QN; [assumption|exact F].
    - apply Val_inj in V. rewrite app_nil_r in V. wstep. call (sha2_rule P R (Some sid) (Some salt) SHA512); cbn [option_map sha2 lift obytes] in *.
      + discriminate.
      + discriminate N.
      + release t; [rewrite <- V; part_of (KE F)|]. out. exact F.
      + apply Val_inj in V0. rewrite app_nil_r in *. destruct (halves (p_sha P SHA512 (b_bytes sid ++ b_bytes salt)) (R SHA512 _)) as (H1 & H2). change (digest_size SHA512 / 2) with 32 in *. rewrite V, V0 in *.
        rewrite H1, H2 in *. cbn [dev_info_create] in *. inside t0 buf_cells. rd. wstep. section; rewrite ?H1 in *; [discriminate N|..].
        * rel t; [part_of (KE F)|]. rel t0; [exact K|]. out. exact F.
        * apply Some_inj' in V1. wstep. section; rewrite ?H2 in *; [discriminate N|..].
          -- rel t0; [exact K|]. rel t; [part_of (KE F)|]. rel b; [rewrite <- V1; part_of (KE F)|]. out. exact F.
          -- apply Some_inj' in V2. rel t0; [exact K|]. unfold h_dev_info_create. wstep. wstep. wstep.
             ++ assert (FF : some_failure fails) by sfailed. rel t; [part_of (KE FF)|]. rel b; [rewrite <- V1; part_of (KE FF)|]. rel b0; [rewrite <- V2; part_of (KE FF)|]. out. exact FF.
             ++ repeat wstep. there. unfold di_value. cbn [hdi_dev hdi_system hdi_msg hdi_srv option_map]. rewrite V1, V2. reflexivity.
  Qed.

  Lemma dev_new_eq i s : fst (dev_info_create_new P (Some i) s) = rbind (fst (crypto_random P (digest_size SHA512) s)) (fun salt => lift (dev_info_derive P (Some salt) (Some i))).
  Proof. unfold dev_info_create_new. rewrite bind_eq. reflexivity. Qed.
  Lemma dev_info_create_new_rule (R : sha_ok P) (R1 : rand_ok P) i s : op_rule di_cells di_value [oc buf_cells i] (fst (dev_info_create_new P (option_map b_bytes i) s))
    (dev_new_public P (option_map b_bytes i) s) (dev_new_exposed P (option_map b_bytes i) s) buffer_kinds never_leaks_op (h_dev_info_create_new P i s).
  Proof.
    begin. unfold h_dev_info_create_new. destruct i as [i|]; [|wstep; gone; left; reflexivity]. cbn [oc option_map dev_new_public dev_new_exposed] in *. rewrite dev_new_eq in *.
    call (crypto_random_rule P R1 (digest_size SHA512) s).
    - intros V. apply HB. rewrite V. reflexivity.
    - out. left. rewrite N. reflexivity.
    - out. right. exact F.
    - rewrite (random_drawn _ _ _ V) in *. rewrite V in *. cbn [rbind map flat_map app] in *. wstep.
      at_heap ltac:(fun E => pull E (buf_cells t); eapply (dev_derive_wp R t i) with (W := W); [exact HU|exact E|exact M0|exact K| | |]).
      + intros FF. part_of (KE FF).
      + intros h1 E1 FF. rel t; [part_of (KE FF)|]. out. right. exact FF.
      + intros x h1 E1 D. repeat wstep. there. rewrite D. reflexivity.
  Qed.

  (* --- fingerprints --- *)
  Lemma pubdata_eq k : blen (ek_pub k) < max_pub_size (ek_curve k) -> ec_key_get_pubdata_fixed_len (Some k) = Val (fit (max_pub_size (ek_curve k)) (ek_pub k)).
  Proof.
    intros L. unfold ec_key_get_pubdata_fixed_len. replace (blen (ek_pub k) =? max_pub_size (ek_curve k)) with false by lia. replace (max_pub_size (ek_curve k) <? blen (ek_pub k)) with false by lia.
    destruct (ek_curve k). cbn [max_pub_size] in *.
    assert (ZZ : buffer_create_empty_zero 134 = Some (repeat x00 134)) by reflexivity. rewrite ZZ. cbn [lift rbind]. unfold memwrite, memread. replace (0 + blen (ek_pub k) <=? blen (ek_pub k)) with true by lia.
    cbn [rbind]. assert (LZ : blen (repeat x00 134) = 134) by reflexivity. rewrite LZ. replace (0 + blen (ek_pub k) <=? 134) with true by lia.
    f_equal. unfold fit, slice. change (N.to_nat 134) with 134%nat. change (N.to_nat 0) with 0%nat. unfold blen in *. rewrite N.add_0_l, Nat2N.id, firstn_O, skipn_O, firstn_all, app_nil_l.
    rewrite firstn_app. rewrite (firstn_all2 (ek_pub k)) by lia. f_equal. generalize (ek_pub k) L. intros pk LL. clear -LL.
    assert (G : forall n k, skipn n (repeat x00 (n + k)) = firstn k (repeat x00 (n + k))).
    { clear. intros n k. rewrite repeat_app at 1. rewrite skipn_app, skipn_all2, repeat_length, Nat.sub_diag by (rewrite repeat_length; lia). cbn [skipn app].
      rewrite Nat.add_comm, repeat_app, firstn_app, repeat_length, Nat.sub_diag, firstn_all2 by (rewrite repeat_length; lia). cbn [firstn]. rewrite app_nil_r. reflexivity. }
    specialize (G (length pk) (134 - length pk)%nat). replace (length pk + (134 - length pk))%nat with 134%nat in G by lia. exact G.
  Qed.
  Lemma pubdata_rule k : op_rule buf_cells b_bytes [key_cells k] (ec_key_get_pubdata_fixed_len (Some (key_value k))) [] [] [] never_leaks_op (h_pubdata_fixed_len k).
  Proof.
    begin. unfold h_pubdata_fixed_len. parts M0 key_cells. do 2 wstep. rd. pose proof (pubdata_eq (key_value k)) as PE. unfold ec_key_get_pubdata_fixed_len in *.
    change (ek_pub (key_value k)) with (b_bytes (hkey_pub k)) in *. change (ek_curve (key_value k)) with (hkey_curve k) in *.
    destruct (blen (b_bytes (hkey_pub k)) =? max_pub_size (hkey_curve k)) eqn:L1.
    - copy (hkey_pub k); [gone; left; cbn [buffer_copy]; rewrite N; reflexivity|gone; right; sfailed|]. there. cbn [buffer_copy]. rewrite V, B. reflexivity.
    - destruct (max_pub_size (hkey_curve k) <? blen (b_bytes (hkey_pub k))) eqn:L2; [out; left; reflexivity|].
      rewrite PE in * by lia. wstep. new_buffer.
      + destruct (hkey_curve k). discriminate N.
      + out. right. sfailed.
      + wstep. fill b; [rewrite B, blen_zeros; apply blen_fit|]. repeat wstep. there. reflexivity.
  Qed.
  Definition digest_of (i : bytes) : fingerprint := {| fp_type := FP_SHA512; fp_data := p_sha P SHA512 i |}.
  Lemma sha512_create_rule (R : sha_ok P) i : op_rule fp_cells fp_value [buf_cells i] (Val (digest_of (b_bytes i))) [] [p_sha P SHA512 (b_bytes i)] buffer_kinds never_leaks_op
    (h_fingerprint_sha512_create P (Some i)).
  Proof.
    begin. unfold h_fingerprint_sha512_create. call (sha2_rule P R (Some i) None SHA512); cbn [option_map sha2 lift obytes] in *.
    - discriminate.
    - discriminate N.
    - out. right. exact F.
    - apply Val_inj in V. rewrite app_nil_r in V. rewrite V in *. unfold h_fingerprint_create. wstep. wstep. wstep.
      + rel t; [apply KE; sfailed|]. out. right. sfailed.
      + repeat wstep. there. unfold fp_value, digest_of. cbn [hfp_type hfp_data]. rewrite V. reflexivity.
  Qed.
  Lemma encode_eq p i : fingerprint_sha512_encode P (Some p) (Some i) = option_map digest_of (buffer_concat (Some i) (Some p)).
  Proof. unfold fingerprint_sha512_encode, fingerprint_sha512_create, digest_of. destruct (buffer_concat (Some i) (Some p)); [|reflexivity]. cbn [sha2 obytes fingerprint_create option_map]. rewrite app_nil_r. reflexivity. Qed.
  Lemma concat_wp a b secret (U W : Prop) fails h0 X h (Q : option hbuf -> heap -> Prop) :
    ext secret W h0 X h -> keeps_secret secret [] ->
    (forall h1, ext secret W h0 X h1 -> buffer_concat a b = None \/ some_failure fails -> Q None h1) ->
    (forall x h1, ext secret W h0 (buf_cells x ++ X) h1 -> buffer_concat a b = Some (b_bytes x) -> Q (Some x) h1) -> wp U fails (h_concat a b) h Q.
  Proof.
    intros E K QN QS. unfold h_concat. destruct (buffer_concat a b) as [c|] eqn:D; cbn [lift].
    - apply wp_step; [discriminate|discriminate|]. intros x V. apply Val_inj in V. subst x. 
      pose proof (concat2_again _ _ _ _ D eq_refl) as CC.
      eapply buffer_make_wp; [exact E|exact K| |].
      + intros h1 E1 [N|F]; [congruence|]. apply QN; [exact E1|right; exact F].
      + intros x h1 E1 V. apply QS; [exact E1|]. congruence.
    - apply wp_step; [discriminate| |discriminate]. intros _. apply QN; [exact E|left; reflexivity].
  Qed.
  Ltac join := at_heap ltac:(fun E => eapply concat_wp; [exact E|keep_tac| |]).
  Lemma sha512_encode_rule (R : sha_ok P) p i : op_rule fp_cells fp_value [buf_cells p; buf_cells i] (lift (fingerprint_sha512_encode P (Some (b_bytes p)) (Some (b_bytes i))))
    (opt_list (buffer_concat (Some (b_bytes i)) (Some (b_bytes p)))) (opt_plain fp_plain (fingerprint_sha512_encode P (Some (b_bytes p)) (Some (b_bytes i)))) buffer_kinds never_leaks_op
    (h_fingerprint_sha512_encode P (Some p) (Some i)).
  Proof.
    begin. unfold h_fingerprint_sha512_encode. rd. rd. wstep. rewrite encode_eq in *. join.
    - intros h1 E1 D. unfold h_fingerprint_sha512_create, h_buffer_destroy. out. destruct D as [D|F]; [left; rewrite D; reflexivity|right; exact F].
    - intros x h1 E1 D. rewrite D in *. cbn [option_map lift opt_plain opt_list] in *. wstep. call (sha512_create_rule R x).
      + discriminate.
      + discriminate N.
      + rel x; [exact K|]. out. right. exact F.
      + rel x; [exact K|]. repeat wstep. there. exact V.
  Qed.
  Lemma order_wp a b x y secret (U W : Prop) fails h0 X h (Q : option hbuf -> heap -> Prop) :
    ext secret W h0 X h -> keeps_secret secret [] ->
    (forall h1, ext secret W h0 X h1 -> fingerprint_order a b x y = None \/ some_failure fails -> Q None h1) ->
    (forall c h1, ext secret W h0 (buf_cells c ++ X) h1 -> fingerprint_order a b x y = Some (b_bytes c) -> Q (Some c) h1) -> wp U fails (h_fingerprint_order a b x y) h Q.
  Proof.
    intros E K. revert b. induction a as [|p a IH]; intros b QN QS; [apply wp_ret, QN; [exact E|left; reflexivity]|]. destruct b as [|q b]; [apply wp_ret, QN; [exact E|left; reflexivity]|].
    cbn [h_fingerprint_order fingerprint_order] in *. destruct (Byte.eqb p q); [apply IH; assumption|].
    destruct (b2n q <? b2n p); (eapply concat_wp; [exact E|exact K|exact QN|exact QS]).
  Qed.
  Lemma sha512_combine_rule (R : sha_ok P) f1 f2 : op_rule fp_cells fp_value [oc fp_cells f1; oc fp_cells f2] (lift (fingerprint_sha512_combine P (option_map fp_value f1) (option_map fp_value f2)))
    (combine_public P (option_map fp_value f1) (option_map fp_value f2)) [] buffer_kinds never_leaks_op (h_fingerprint_sha512_combine P f1 f2).
  Proof.
    begin. unfold h_fingerprint_sha512_combine. destruct f1 as [x|]; [|out; left; reflexivity]. destruct f2 as [y|]; [|out; left; reflexivity]. cbn [option_map oc] in *.
    parts M0 fp_cells. parts M1 fp_cells. do 4 wstep. rd. rd. unfold combine_public, fingerprint_sha512_combine in *. change (fp_data (fp_value x)) with (b_bytes (hfp_data x)) in *.
    change (fp_data (fp_value y)) with (b_bytes (hfp_data y)) in *. destruct (negb _); [out; left; reflexivity|]. wstep.
    at_heap ltac:(fun E => eapply order_wp; [exact E|keep_tac| |]).
    - intros h1 E1 D. out. destruct D as [D|F]; [left; rewrite D; reflexivity|right; exact F].
    - intros c h1 E1 D. rewrite D in *. cbn [fingerprint_sha512_create sha2 obytes fingerprint_create option_map lift opt_plain opt_list fp_plain app] in *. rewrite app_nil_r in *. wstep. call (sha512_create_rule R c).
      + discriminate.
      + discriminate N.
      + rel c; [part_of K|]. out. right. exact F.
      + rel c; [part_of K|]. repeat wstep. there. exact V.
  Qed.
  Lemma fingerprint_gen_rule (R : sha_ok P) key identifier t : op_rule fp_cells fp_value [oc key_cells key; oc buf_cells identifier] (fingerprint_gen P (option_map key_value key) (option_map b_bytes identifier) t)
    (fingerprint_public P (option_map key_value key) (option_map b_bytes identifier)) [] buffer_kinds never_leaks_op (h_fingerprint_gen P key identifier t).
  Proof.
    begin. unfold h_fingerprint_gen. destruct key as [k|]; [|out; left; reflexivity]. destruct identifier as [i|]; [|out; left; reflexivity]. cbn [option_map oc] in *.
    unfold fingerprint_public, fingerprint_gen in *. call (pubdata_rule k).
    - intros V. apply HB. rewrite V. reflexivity.
    - out. left. rewrite N. reflexivity.
    - out. right. exact F.
    - rewrite V in *. cbn [rbind] in *. wstep. assert (K1 : keeps_secret secret (opt_list (buffer_concat (Some (b_bytes i)) (Some (b_bytes t0))))) by part_of K.
      call (sha512_encode_rule R t0 i).
      + intros V0. destruct (lift_ub _ V0).
      + refine (keeps_sub _ _ _ K _). intros z I. apply in_or_app. right. destruct (fingerprint_sha512_encode P _ _); exact I.
      + rel t0; [part_of K|]. out. left. exact N.
      + rel t0; [part_of K|]. out. right. exact F.
      + rel t0; [part_of K|]. repeat wstep. there. exact V0.
  Qed.
  Lemma gen_bilateral_rule (R : sha_ok P) f1 f2 t : op_rule fp_cells fp_value [oc fp_cells f1; oc fp_cells f2] (lift (fingerprint_gen_bilateral P (option_map fp_value f1) (option_map fp_value f2) t))
    (combine_public P (option_map fp_value f1) (option_map fp_value f2)) [] buffer_kinds never_leaks_op (h_fingerprint_gen_bilateral P f1 f2 t).
  Proof. destruct t. exact (sha512_combine_rule R f1 f2). Qed.
  Lemma identity_fingerprint_rule (R : sha_ok P) x : op_rule fp_cells fp_value [oc id_cells x] (identity_get_fingerprint P (option_map id_value x))
    (id_fingerprint_public P (option_map id_value x)) [] buffer_kinds never_leaks_op (h_identity_get_fingerprint P x).
  Proof.
    begin. unfold h_identity_get_fingerprint. destruct x as [x|]; [|out; left; reflexivity]. cbn [option_map oc] in *. parts M0 id_cells. do 2 wstep.
    eapply (fingerprint_gen_rule R (Some (hid_key x)) (Some (hid_identifier x)) FP_SHA512) with (W := W); [exact HU|exact HB|exact HW|exact OK|arguments|exact K|exact KE|exact QN|exact QS].
  Qed.
  Lemma bilateral_fingerprint_rule (R : sha_ok P) x y : op_rule fp_cells fp_value [oc id_cells x; oc id_cells y] (identity_get_bilateral_fingerprint P (option_map id_value x) (option_map id_value y))
    (bilateral_public P (option_map id_value x) (option_map id_value y)) [] buffer_kinds never_leaks_op (h_identity_get_bilateral_fingerprint P x y).
  Proof.
    begin. unfold h_identity_get_bilateral_fingerprint. destruct x as [x|]; [|out; left; reflexivity]. destruct y as [y|]; [|out; left; reflexivity]. cbn [option_map oc] in *.
    unfold identity_get_bilateral_fingerprint, bilateral_public, identity_get_fingerprint, id_fingerprint_public in *. parts M0 id_cells. parts M1 id_cells. do 2 wstep.
    change (id_key (id_value x)) with (key_value (hid_key x)) in *. change (id_identifier (id_value x)) with (b_bytes (hid_identifier x)) in *.
    change (id_key (id_value y)) with (key_value (hid_key y)) in *. change (id_identifier (id_value y)) with (b_bytes (hid_identifier y)) in *.
    call (fingerprint_gen_rule R (Some (hid_key x)) (Some (hid_identifier x)) FP_SHA512); cbn [option_map] in *.
    - intros V. apply HB. rewrite V. reflexivity.
    - out. left. rewrite N. reflexivity.
    - out. right. exact F.
    - rewrite V in *. cbn [rbind] in *. do 3 wstep.
      assert (KX : keeps_secret secret (fp_plain (fp_value t))).
      { refine (keeps_sub _ _ _ K _). intros z I. apply in_or_app. left. unfold fingerprint_public. rewrite V. apply in_or_app. right. exact I. }
      call (fingerprint_gen_rule R (Some (hid_key y)) (Some (hid_identifier y)) FP_SHA512); cbn [option_map] in *.
      + intros V0. apply HB. rewrite V0. reflexivity.
      + rid fingerprint_destroy_rule t; [exact KX|]. out. left. rewrite N. reflexivity.
      + rid fingerprint_destroy_rule t; [exact KX|]. out. right. exact F.
      + rewrite V0 in *. cbn [rbind] in *. wstep.
        assert (KY : keeps_secret secret (fp_plain (fp_value t0))).
        { refine (keeps_sub _ _ _ K _). intros z I. apply in_or_app. right. apply in_or_app. left. unfold fingerprint_public. rewrite V0. apply in_or_app. right. exact I. }
        call (gen_bilateral_rule R (Some t) (Some t0) FP_SHA512); cbn [option_map] in *.
        * intros V1. destruct (lift_ub _ V1).
        * rid fingerprint_destroy_rule t0; [exact KY|]. rid fingerprint_destroy_rule t; [exact KX|]. out. left. exact N.
        * rid fingerprint_destroy_rule t0; [exact KY|]. rid fingerprint_destroy_rule t; [exact KX|]. out. right. exact F.
        * rid fingerprint_destroy_rule t0; [exact KY|]. rid fingerprint_destroy_rule t; [exact KX|]. repeat wstep. there. exact V1.
  Qed.

  (* --- keys of streams and of the transport --- *)
  Lemma root_key_random_rule (R : rand_ok P) c send recv s : op_rule tr_cells tr_value [] (fst (root_key_create_random P c send recv s)) [] [] buffer_kinds never_leaks_op
    (h_root_key_create_random P c send recv s).
  Proof.
    begin. unfold h_root_key_create_random. unfold root_key_create_random in *. rewrite bind_eq in *. call (crypto_random_rule P R (key_len c) s).
    - intros V. apply HB. rewrite V. reflexivity.
    - out. left. rewrite N. reflexivity.
    - out. right. exact F.
    - rewrite V in *. cbn [rbind mlift mres fst lift root_key_create] in *. unfold h_root_key_create. inside t buf_cells. do 3 wstep. destruct (negb _).
      + repeat wstep. wipe t. out. left. reflexivity.
      + wstep. wstep.
        * repeat wstep. wipe t. out. right. sfailed.
        * repeat wstep. there. reflexivity.
  Qed.
  Lemma stream_key_rand_rule (R : rand_ok P) c ppe s : op_rule st_cells st_value [] (fst (stream_key_create_rand P c ppe s)) [] [] (T_cipher_key :: buffer_kinds) never_leaks_op
    (h_stream_key_create_rand P c ppe s).
  Proof.
    begin. unfold h_stream_key_create_rand. unfold stream_key_create_rand in *. rewrite bind_eq in *. call (cipher_key_random_rule P R c s).
    - intros V. apply HB. rewrite V. reflexivity.
    - out. left. rewrite N. reflexivity.
    - out. right. exact F.
    - rewrite V, (cipher_key_draw _ _ _ V) in *. cbn [rbind] in *. rewrite bind_eq in *. wstep. call (crypto_random_rule P R (key_len c) (S s)).
      + intros V0. apply HB. rewrite V0. reflexivity.
      + rid cipher_key_destroy_rule t; [exact K0|]. out. left. rewrite N. reflexivity.
      + rid cipher_key_destroy_rule t; [exact K0|]. out. right. exact F.
      + rewrite V0 in *. cbn [rbind mlift mres fst lift] in *. unfold stream_key_create, stream_key_create_user_data in *. unfold h_stream_key_create. wstep. destruct (_ || _).
        * rid cipher_key_destroy_rule t; [exact K0|]. repeat wstep. wipe t0. out. left. reflexivity.
        * wstep. wstep.
          -- rid cipher_key_destroy_rule t; [exact K0|]. repeat wstep. wipe t0. out. right. sfailed.
          -- repeat wstep. there. reflexivity.
  Qed.
  Lemma stream_iv_create_rule (R : rand_ok P) c s : op_rule si_cells si_value [] (fst (stream_iv_create P c s)) [] (drawn P s (digest_size SHA512)) buffer_kinds never_leaks_op (h_stream_iv_create P c s).
  Proof.
    begin. unfold h_stream_iv_create. unfold stream_iv_create in *. rewrite bind_eq in *. call (crypto_random_rule P R (digest_size SHA512) s).
    - intros V. apply HB. rewrite V. reflexivity.
    - out. left. rewrite N. reflexivity.
    - out. right. exact F.
    - rewrite (random_drawn _ _ _ V) in *. rewrite V in *. cbn [rbind mret fst] in *. wstep. wstep.
      + rel t; [apply KE; sfailed|]. out. right. sfailed.
      + repeat wstep. there. reflexivity.
  Qed.
  Lemma to_stream_key_rule (R1 : scrypt_ok P) (R2 : hkdf_ok P) k salt i d (MX : real (b_bytes salt)) (MI : real (b_bytes i)) :
    op_rule st_cells st_value [tr_cells k; buf_cells salt; buf_cells i] (root_key_to_stream_key P (tr_value k) (b_bytes salt) (b_bytes i) d) [b_bytes i]
      (to_stream_exposed P (tr_value k) (b_bytes salt) (b_bytes i)) [T_cipher_key] some_failure (h_root_key_to_stream_key P k salt i d).
  Proof.
    begin. unfold h_root_key_to_stream_key. parts M0 tr_cells. unfold root_key_to_stream_key in *. change (rk_secret (tr_value k)) with (b_bytes (htr_secret k)) in *. change (rk_cipher (tr_value k)) with (htr_cipher k) in *.
    change (rk_send (tr_value k)) with (htr_send k) in *. change (rk_recv (tr_value k)) with (htr_recv k) in *.
    change {| km_algo := KDF_HKDF_SHA512; km_salt := Some (b_bytes salt); km_info := Some (b_bytes i) |} with (meta_of KDF_HKDF_SHA512 (Some salt) (Some i)) in *.
    assert (K1 : ka_kind KDF_HKDF_SHA512 = KDF_HMAC_SHA2) by reflexivity.
    assert (MS : made_kdf_meta (meta_of KDF_HKDF_SHA512 (Some salt) (Some i))).
    { split; [intros z Z; apply Some_inj' in Z; subst z; exact MX|]. split; [intros z Z; apply Some_inj' in Z; subst z; exact MI|]. left. discriminate. }
    assert (HW1 : kdf_leak KDF_HKDF_SHA512 (b_bytes (htr_secret k)) fails -> W) by (intros [F|(F & _)]; [exact (HW F)|discriminate F]).
    do 3 wstep. call (perform_kdf_with_rule P R1 R2 KDF_HKDF_SHA512 (Some salt) (Some i) (htr_secret k) MS).
    - rewrite (perform_kdf_meta_eq _ _ _ MS). intros V. exfalso. revert V. pose proof (hkdf_defined P (meta_of KDF_HKDF_SHA512 (Some salt) (Some i)) (b_bytes (htr_secret k)) K1) as ND.
      destruct (kdf_algo_hash P _ _); [discriminate..|]. intros _. apply ND. reflexivity.
    - out. left. rewrite N. reflexivity.
    - out. right. exact F.
    - destruct (performed_meta P _ _ _ MS V) as (KM & KV). rewrite V in *. cbn [rbind] in *. change (kr_hash (kr_value t)) with (b_bytes (hkr_hash t)) in *.
      pose proof (hkdf_output P R2 (meta_of KDF_HKDF_SHA512 (Some salt) (Some i)) _ _ K1 KV) as L. cbn [meta_of km_algo] in L. change (ka_output_size KDF_HKDF_SHA512) with 64 in L.
      assert (KR : keeps_secret secret (kr_plain (kr_value t))) by (unfold kr_plain; rewrite KM; exact K).
      assert (L2 : blen (b_bytes (hkr_hash t)) =? key_len (htr_cipher k) * 2 = true) by (rewrite L; destruct (htr_cipher k); reflexivity). rewrite L2 in *.
      inside t kr_cells. do 2 wstep. match goal with G : in_memory _ (buf_cells (hkr_hash t)) |- _ => destruct (here_bytes _ _ G) as (G1 & G2) end.
      wstep. eapply bytes_wp; [exact G1|exact G2|]. rewrite L2. cbn [negb].
      destruct (halves _ L) as (S1 & S2). assert (KL : key_len (htr_cipher k) = 32) by (destruct (htr_cipher k); reflexivity). rewrite KL in *. rewrite S1, S2 in *. cbn [lift rbind] in *.
      assert (CK : cipher_key_create (htr_cipher k) (Some (firstn 32 (b_bytes (hkr_hash t)))) = Some {| ck_cipher := htr_cipher k; ck_data := firstn 32 (b_bytes (hkr_hash t)) |}).
      { unfold cipher_key_create. rewrite KL. replace (blen (firstn 32 (b_bytes (hkr_hash t))) =? 32) with true; [reflexivity|]. symmetry. unfold blen in *. rewrite firstn_length. lia. }
      rewrite CK in *. cbn [lift rbind] in *. unfold stream_key_create, stream_key_create_user_data in *. wstep. section.
      + congruence.
      + unfold h_cipher_key_create, h_buffer_destroy_zero. repeat wstep. apply QN; [|right; exact F]. eapply ext_leak; [exact (HW F)|exact E].
      + assert (BB : b_bytes b = firstn 32 (b_bytes (hkr_hash t))) by congruence. wstep. make_key b.
        * rewrite BB in N. congruence.
        * assert (VK : ck_value k0 = {| ck_cipher := htr_cipher k; ck_data := firstn 32 (b_bytes (hkr_hash t)) |}) by (rewrite BB in *; congruence).
          wstep. section.
          -- congruence.
          -- rid kdf_result_destroy_rule t; [exact KR|]. unfold h_stream_key_create. rid cipher_key_destroy_rule k0; [exact K0|]. unfold h_buffer_destroy_zero. out. right. exact F.
          -- assert (B2 : b_bytes b0 = skipn 32 (b_bytes (hkr_hash t))) by congruence. rid kdf_result_destroy_rule t; [exact KR|]. unfold h_stream_key_create. wstep. destruct (_ || _).
             ++ rid cipher_key_destroy_rule k0; [exact K0|]. repeat wstep. wipe b0. out. left. reflexivity.
             ++ wstep. wstep.
                ** rid cipher_key_destroy_rule k0; [exact K0|]. repeat wstep. wipe b0. out. right. sfailed.
                ** repeat wstep. there. unfold st_value. cbn [hst_cipher hst_evo hst_ppe hst_user option_map]. rewrite VK, B2. reflexivity.
  Qed.
End generate.
