(* Which calls on a transport context can misuse memory. *)
From Verif.Base Require Import Bytes Monad.
From Verif.Model Require Import Buffer Cipher Ecdsa Kdf Prims Engine Identity Proto Stream TransportPacket EcdhCipher Handshake Transport.
From Verif.Spec Require Import BufferSpec CodecSpec EngineSpec IdentitySpec StreamSpec TransportSpec HandshakeSpec.
From Verif.Proofs Require Import BytesFacts BufferFacts BufferProps CodecFacts EngineFacts IdentityFacts CacheFacts StreamFacts TransportPacketFacts HandshakeFacts TransportFacts.
From Coq Require Import ZifyBool ZifyNat ZifyN.
Ltac Zify.zify_post_hook ::= Z.div_mod_to_equations.
Local Open Scope N_scope.
Local Open Scope m_scope.

Definition msafe {A} (m : M A) : Prop := forall s, fst (m s) <> UB.
Definition rsafe {A} (r : res A) : Prop := r <> UB.
Lemma msafe_ret {A} (a : A) : msafe (mret a).
Proof. intros s. discriminate. Qed.
Lemma msafe_lift {A} (o : option A) : msafe (mlift o).
Proof. intros s. destruct o; discriminate. Qed.
Lemma msafe_null {A} : msafe (mres (@Null A)).
Proof. intros s. discriminate. Qed.
Lemma msafe_res {A} (r : res A) : rsafe r -> msafe (mres r).
Proof. intros H s. exact H. Qed.
Lemma msafe_bind {A B} (m : M A) (k : A -> M B) : msafe m -> (forall a s s', m s = (Val a, s') -> msafe (k a)) -> msafe (mbind m k).
Proof. intros H K s. unfold mbind. specialize (H s). destruct (m s) as [[a| |] s1] eqn:E; [exact (K a s s1 E s1)|discriminate|destruct (H eq_refl)]. Qed.
Lemma msafe_try {A} (m : M A) : msafe m -> msafe (mtry m).
Proof. intros H s. unfold mtry. specialize (H s). destruct (m s) as [[a| |] s1]; [discriminate|discriminate|destruct (H eq_refl)]. Qed.
Lemma msafe_htry {A} (m : M A) h k : msafe m -> (forall a s s', m s = (Val a, s') -> msafe (k a)) -> msafe (htry m h k).
Proof.
  intros H K. unfold htry. apply msafe_bind; [apply msafe_try, H|]. intros [a|] s s' E; [|apply msafe_ret]. apply mtry_Val in E. exact (K a s s' E).
Qed.
Lemma rsafe_lift {A} (o : option A) : rsafe (lift o).
Proof. destruct o; discriminate. Qed.
Lemma rsafe_bind {A B} (r : res A) (k : A -> res B) : rsafe r -> (forall a, r = Val a -> rsafe (k a)) -> rsafe (rbind r k).
Proof. intros H K. destruct r as [a| |]; [exact (K a eq_refl)|discriminate|destruct (H eq_refl)]. Qed.
Lemma rsafe_try {A} (r : res A) : rsafe r -> rsafe (rtry r).
Proof. intros H. destruct r; [discriminate|discriminate|destruct (H eq_refl)]. Qed.

(* --- the engine *)
Section Safety.
Context (P : prims).
Lemma random_safe n : 0 < n <= 64 -> msafe (crypto_random P n).
Proof.
  intros H s. unfold crypto_random. destruct (N.ltb_spec INT_MAX n) as [L|L]; [discriminate|].
  assert (Z : size_ok n = true) by (apply size_ok_limit; unfold within_limit, library_limit; lia). rewrite Z. cbn [negb fst]. destruct (p_rand P s n); discriminate.
Qed.
Lemma rand_key_safe c : msafe (ec_rand_key P c).
Proof.
  intros s. unfold ec_rand_key. destruct (p_ec_gen P s) as [[pub pri]|]; [|discriminate]. cbn [fst].
  destruct (ec_pri_key_to_buffer pri); [|discriminate]. destruct (ec_pub_key_to_buffer c pub); [|discriminate]. apply rsafe_lift.
Qed.
Lemma sign_safe k d g : msafe (ec_sign P k d g).
Proof.
  intros s. unfold ec_sign. destruct k as [k|]; [|discriminate]. destruct d as [d|]; [|discriminate]. destruct (ek_pri k) as [pri|]; [|discriminate].
  destruct (p_d2i P pri); [|discriminate]. apply rsafe_lift.
Qed.
Lemma encrypt_iv_safe pt aad k iv : rand_ok P -> blen (obytes aad) <= INT_MAX -> (forall v k0, iv = Some v -> k = Some k0 -> iv_len (ck_cipher k0) <= blen v) -> msafe (aes256_encrypt P pt aad k iv).
Proof.
  intros RO L V. unfold aes256_encrypt. destruct pt as [pt|]; [|apply msafe_null]. destruct k as [k|]; [|apply msafe_null]. cbv zeta.
  destruct (match aad with Some _ => _ | None => _ end); [apply msafe_null|]. destruct (_ || _); [apply msafe_null|].
  apply msafe_bind.
  { destruct iv; [apply msafe_ret|]. apply msafe_try, random_safe; destruct (ck_cipher k); split; (reflexivity || discriminate). }
  intros [v|] s s' E; [|apply msafe_null]. destruct (negb _); [apply msafe_null|].
  assert (Lv : iv_len (ck_cipher k) <= blen v).
  { destruct iv as [w|].
    - apply mret_Val in E. destruct E as [E _]. symmetry in E. apply buffer_copy_Some in E. destruct E as [E _]. apply Some_inj in E. subst w. exact (V v k eq_refl eq_refl).
    - apply mtry_Val in E. apply crypto_random_Val in E. destruct E as [E _]. apply RO in E. lia. }
  destruct (N.ltb_spec (blen v) (iv_len (ck_cipher k))); [lia|]. destruct (N.ltb_spec INT_MAX (blen (obytes aad))); [lia|].
  destruct (ck_cipher k); apply msafe_lift.
Qed.
Lemma encrypt_safe pt aad k : rand_ok P -> blen (obytes aad) <= INT_MAX -> msafe (aes256_encrypt P pt aad k None).
Proof. intros R L. apply encrypt_iv_safe; [exact R|exact L|discriminate]. Qed.
Lemma hkdf_meta_safe m p : (forall x, m = Some x -> ka_kind (km_algo x) = KDF_HMAC_SHA2) -> rsafe (perform_kdf_meta P m p).
Proof.
  intros K. unfold perform_kdf_meta. destruct m as [x|]; [|discriminate]. destruct p as [p|]; [|discriminate].
  apply rsafe_bind; [unfold kdf_algo_hash; rewrite (K x eq_refl); apply rsafe_lift|]. intros h _. apply rsafe_bind; [apply rsafe_lift|]. intros; apply rsafe_lift.
Qed.
Lemma identity_parse_safe m : rsafe (identity_create_from_proto P m).
Proof.
  unfold identity_create_from_proto. destruct m as [x|]; [|discriminate]. destruct (pi_identifier x); [|discriminate]. destruct (pi_sig_key x); [|discriminate]. destruct (pi_type x); [|discriminate].
  apply rsafe_bind; [apply rsafe_lift|]. intros i _. cbv zeta. apply rsafe_bind; [apply rsafe_lift|]. intros k _. apply rsafe_bind; [|intros; apply rsafe_lift].
  destruct (pi_signature x); [|discriminate]. apply rsafe_bind; [apply sig_parse_safe|discriminate].
Qed.
Lemma chain_parse_safe m : rsafe (chain_create_from_proto P m).
Proof.
  unfold chain_create_from_proto. destruct m as [x|]; [|discriminate]. apply rsafe_bind; [apply identity_parse_safe|]. intros r _.
  apply rsafe_bind; [apply identity_parse_safe|]. intros n _. apply rsafe_lift.
Qed.
Lemma identity_sign_safe x d : msafe (identity_sign P x d).
Proof. unfold identity_sign. destruct x as [x|]; [|apply msafe_null]. destruct d as [d|]; [|apply msafe_null]. destruct (ek_pri (id_key x)); [apply sign_safe|apply msafe_null]. Qed.
Lemma tpacket_sign_safe p c : msafe (tpacket_sign P p c).
Proof.
  unfold tpacket_sign. cbv zeta. destruct (tpacket_serialize _); [|apply msafe_ret]. apply msafe_bind; [apply msafe_try, identity_sign_safe|].
  intros g _ _ _. destruct (ecdsa_result_serialize g); apply msafe_ret.
Qed.
Lemma tpacket_verify_safe p c : rsafe (fst (fst (tpacket_verify P p c))).
Proof.
  unfold tpacket_verify. destruct (tp_mac p) as [mac|]; [|discriminate]. destruct (negb _); [discriminate|]. destruct (match tp_network p with Some _ => _ | None => _ end); [|discriminate]. cbv zeta.
  destruct (chain_validate P c) as [v c']. destruct (negb v); [discriminate|]. destruct (_ <=? _); [discriminate|]. 
  pose proof (sig_parse_safe (Some mac)). destruct (ecdsa_result_create_from_buffer (Some mac)); [discriminate|discriminate|congruence].
Qed.
Lemma remote_identity_safe h pkt m : rsafe (process_remote_identity P h pkt m).
Proof.
  unfold process_remote_identity. apply rsafe_bind.
  - destruct (hs_remote h); [discriminate|]. apply rsafe_bind; [apply rsafe_try, chain_parse_safe|]. discriminate.
  - intros [[c|] h'] _; [|discriminate]. pose proof (tpacket_verify_safe pkt c) as S. destruct (tpacket_verify P pkt c) as [[v q] c']. cbn [fst] in S.
    apply rsafe_bind; [exact S|discriminate].
Qed.
Lemma gen_cipher_key_safe x r k : rsafe (ecdh_gen_cipher_key P x r k).
Proof.
  unfold ecdh_gen_cipher_key. destruct r as [r|]; [|discriminate]. destruct k as [k|]; [|discriminate]. destruct (kdf_kind_eqb (ka_kind (km_algo k)) KDF_HMAC_SHA2) eqn:K; cbn [negb]; [|discriminate]. cbv zeta.
  apply rsafe_bind; [apply rsafe_lift|]. intros s _. apply rsafe_bind.
  - apply hkdf_meta_safe. intros y E. apply Some_inj in E. subst y. cbn [km_algo with_output_size ka_kind]. destruct (ka_kind (km_algo k)); (reflexivity || discriminate).
  - intros kr _. apply rsafe_bind; [apply rsafe_lift|]. intros; apply rsafe_lift.
Qed.
Lemma created_key_good c d k : cipher_key_create c d = Some k -> good_key k.
Proof.
  unfold cipher_key_create. destruct d as [d|]; [|discriminate]. destruct (N.eqb_spec (blen d) (key_len c)) as [L|]; [|discriminate]. intros H. apply Some_inj in H. subst k.
  unfold good_key. cbn [ck_data]. replace (key_len c) with 32 in L by (destruct c; reflexivity). unfold blen in L. lia.
Qed.
Lemma gen_cipher_key_good x r k ck : ecdh_gen_cipher_key P x r k = Val ck -> good_key ck.
Proof.
  unfold ecdh_gen_cipher_key. destruct r as [r|]; [|discriminate]. destruct k as [k|]; [|discriminate]. destruct (negb _); [discriminate|]. cbv zeta. intros H.
  apply rbind_Val in H. destruct H as (s & _ & H). apply rbind_Val in H. destruct H as (kr & _ & H). apply rbind_Val in H. destruct H as (d & _ & H).
  apply lift_Val' in H. exact (created_key_good _ _ _ H).
Qed.
Lemma decipher_safe x ct r k : good_result ct -> rsafe (ecdh_decipher P x (Some ct) r k).
Proof.
  intros G. unfold ecdh_decipher. destruct r as [r|]; [|discriminate]. destruct k as [k|]; [|discriminate]. destruct (negb _); [discriminate|].
  apply rsafe_bind; [apply gen_cipher_key_safe|]. intros ck E. apply gen_cipher_key_good in E. apply decrypt_safe; assumption.
Qed.
Lemma ecdh_cipher_safe x pt r k : rand_ok P -> msafe (ecdh_cipher P x pt r k).
Proof.
  intros RO. unfold ecdh_cipher. destruct pt as [pt|]; [|apply msafe_null]. destruct r as [r|]; [|apply msafe_null]. destruct k as [k|]; [|apply msafe_null].
  apply msafe_bind; [apply msafe_res, gen_cipher_key_safe|]. intros ck _ _ _. apply encrypt_safe; [exact RO|discriminate].
Qed.
Lemma ecdh_create_safe c x : msafe (ecdh_ctx_create P c x).
Proof. apply msafe_bind; [apply rand_key_safe|]. intros; apply msafe_lift. Qed.
Lemma stream_key_safe k salt id d : rsafe (root_key_to_stream_key P k salt id d).
Proof.
  unfold root_key_to_stream_key. apply rsafe_bind.
  - apply hkdf_meta_safe. intros y E. apply Some_inj in E. subst y. reflexivity.
  - intros raw _. destruct (_ =? _); [|discriminate]. apply rsafe_bind; [apply rsafe_lift|]. intros d1 _. apply rsafe_bind; [apply rsafe_lift|]. intros ck _.
    apply rsafe_bind; [apply rsafe_lift|]. intros e _. apply rsafe_lift.
Qed.

(* --- the handshake *)
Lemma hfail_safe h : msafe (hfail h).
Proof. apply msafe_ret. Qed.
Lemma build_signed_safe h m n : msafe (build_signed_packet P h m n).
Proof.
  unfold build_signed_packet. apply msafe_htry; [apply msafe_lift|]. intros pkt _ _ _. apply msafe_bind; [apply tpacket_sign_safe|].
  intros [[|] p] _ _ _; apply msafe_ret.
Qed.
Lemma start_safe h : msafe (handshake_start P h).
Proof.
  unfold handshake_start. destruct (hs_status h); try apply hfail_safe. cbv zeta. apply msafe_htry; [apply rand_key_safe|]. intros k _ _ _. apply msafe_htry; [apply msafe_lift|].
  intros sd _ _ _. apply build_signed_safe.
Qed.
Lemma response_safe h pkt : rand_ok P -> (forall sd, handshake_from_packet pkt <> Some (PSeed sd)) -> msafe (process_response P h pkt).
Proof.
  intros RO N. unfold process_response. cbv zeta. set (h1 := record_packet 1 (tp_network pkt) h). clearbody h1. apply msafe_htry; [apply msafe_lift|]. intros data s s' E. apply mlift_Val in E. destruct E as [E _].
  destruct data as [|sd|r]; [apply hfail_safe|destruct (N sd E)|]. destruct (pr_data r) as [enc|]; [|apply hfail_safe]. destruct (pr_pubkey r) as [pub|]; [|apply hfail_safe].
  destruct (match hs_remote h1, pr_chain r with None, None => _ | _, _ => _ end); [apply hfail_safe|].
  apply msafe_htry. { apply msafe_res, rsafe_bind; [apply rsafe_lift|]. intros b _. apply result_parse_safe. }
  intros ct s1 s2 Ec. apply mres_Val in Ec. destruct Ec as [Ec _]. apply rbind_Val in Ec. destruct Ec as (eb & _ & Ec). apply result_parse_inv in Ec. destruct Ec as [G _].
  apply msafe_htry; [apply msafe_lift|]. intros lk _ _ _. apply msafe_htry; [apply msafe_lift|]. intros ctx _ _ _. apply msafe_htry; [apply msafe_lift|]. intros re _ _ _.
  apply msafe_bind; [apply msafe_res, remote_identity_safe|]. intros [[|] h2] _ _ _; [|apply hfail_safe].
  apply msafe_htry; [apply msafe_lift|]. intros kdf _ _ _. apply msafe_htry; [apply msafe_res, decipher_safe, G|]. intros rb _ _ _.
  apply msafe_htry; [apply msafe_lift|]. intros rd _ _ _. apply msafe_htry; [apply msafe_lift|]. intros k _ _ _. apply msafe_ret.
Qed.
Lemma initial_safe h pkt : rand_ok P -> (forall r, handshake_from_packet pkt <> Some (PResponse r)) -> msafe (process_initial P h pkt).
Proof.
  intros RO N. unfold process_initial. cbv zeta. set (h1 := record_packet 0 (tp_network pkt) h). clearbody h1. apply msafe_htry; [apply msafe_lift|]. intros data s s' E. apply mlift_Val in E. destruct E as [E _].
  destruct data as [|sd|r]; [apply hfail_safe| |destruct (N r E)]. destruct (ps_pubkey sd) as [pub|]; [|apply hfail_safe]. destruct (ps_required sd) as [req|]; [|apply hfail_safe].
  apply msafe_bind; [apply msafe_res, remote_identity_safe|]. intros [[|] h2] _ _ _; [|apply hfail_safe].
  apply msafe_htry; [apply msafe_lift|]. intros e _ _ _. apply msafe_htry; [apply ecdh_create_safe|]. intros ctx _ _ _.
  apply msafe_htry. { unfold root_key_create_random. apply msafe_bind; [apply random_safe; split; (reflexivity || discriminate)|]. intros; apply msafe_lift. }
  intros k _ _ _. apply msafe_htry; [apply msafe_lift|]. intros ser _ _ _. apply msafe_htry; [apply ecdh_cipher_safe, RO|]. intros res _ _ _.
  apply msafe_htry; [apply msafe_lift|]. intros rb _ _ _. apply msafe_htry; [apply msafe_lift|]. intros rsp _ _ _.
  apply msafe_bind; [apply build_signed_safe|]. intros [h3 [p|]] _ _ _; apply msafe_ret.
Qed.
Lemma process_safe h pkt : rand_ok P ->
  (forall m, handshake_from_packet pkt = Some m -> match hs_status h, m with H_UNKNOWN, PResponse _ | H_IN_PROGRESS, PSeed _ => False | _, _ => True end) ->
  msafe (handshake_process P h (Some pkt)).
Proof.
  intros RO N. unfold handshake_process. destruct (negb _); [apply msafe_ret|].
  assert (S : msafe (process_packet P h pkt)).
  { unfold process_packet. destruct (hs_status h); try apply hfail_safe.
    - apply initial_safe; [exact RO|]. intros r E. exact (N _ E).
    - apply response_safe; [exact RO|]. intros r E. exact (N _ E). }
  destruct (hs_status h); try apply msafe_ret; (apply msafe_bind; [exact S|]; intros [h' p] _ _ _; destruct (hs_status h'); apply msafe_ret).
Qed.
Lemma finalize_safe h : rsafe (handshake_finalize P h).
Proof.
  unfold handshake_finalize. cbv zeta. destruct (hs_root h) as [k|]; [|discriminate]. destruct (hs_status h); try discriminate. destruct (buffer_concat _ _); [|discriminate]. destruct (sha2 P _ _ _); [|discriminate].
  apply rsafe_bind; [apply rsafe_try, stream_key_safe|]. intros a _. apply rsafe_bind; [apply rsafe_try, stream_key_safe|]. intros c _. destruct a; [|discriminate]. destruct c; discriminate.
Qed.
Lemma stream_create_safe k d : msafe (stream_ctx_create P k d).
Proof.
  unfold stream_ctx_create. destruct k as [k|]; [|apply msafe_null]. destruct (negb _); [apply msafe_null|]. apply msafe_bind; [|intros; apply msafe_ret].
  destruct d; [|apply msafe_ret]. apply msafe_bind; [|intros; apply msafe_ret]. apply msafe_bind; [apply random_safe; split; (reflexivity || discriminate)|]. intros; apply msafe_ret.
Qed.

(* --- contexts *)
Lemma finalize_handshake_safe c h : msafe (finalize_handshake P c h).
Proof.
  unfold finalize_handshake. apply msafe_bind; [apply msafe_res, finalize_safe|]. intros [h' [r|]] _ _ _; [|apply msafe_ret]. cbv zeta.
  apply msafe_bind; [apply msafe_try, stream_create_safe|]. intros [tx|] _ _ _; [|apply msafe_ret].
  apply msafe_bind; [apply msafe_try, stream_create_safe|]. intros [rx|] _ _ _; apply msafe_ret.
Qed.
Lemma after_safe c v f u : msafe (after_handshake P c v f u).
Proof.
  unfold after_handshake. apply msafe_bind.
  - destruct (tc_handshake c) as [h|]; [|apply msafe_ret]. destruct (hs_status h); try apply msafe_ret. apply finalize_handshake_safe.
  - intros [c1 ev] _ _ _. assert (E : forall e, msafe (let '(c', ev') := set_error e c1 in mret (c', ev ++ ev')%list)) by (intros e; destruct (set_error e c1); apply msafe_ret).
    assert (V : msafe (match v with Some p => match tpacket_serialize p with Some b => mret (c1, (ev ++ [EvTx b])%list) | None => let '(c', ev') := set_error u c1 in mret (c', (ev ++ ev')%list) end | None => mret (c1, ev) end)).
    { destruct v as [p|]; [|apply msafe_ret]. destruct (tpacket_serialize p); [apply msafe_ret|apply E]. }
    destruct (handshake_status (tc_handshake c1)); first [exact V|apply E].
Qed.
Lemma identity_complete_safe c v : msafe (identity_complete P c v).
Proof. unfold identity_complete. destruct (tc_handshake c) as [h|]; [|apply after_safe]. destruct (handshake_verify_identity h v). apply after_safe. Qed.
Lemma handshake_packet_safe c pkt a : rand_ok P ->
  (forall m, handshake_from_packet pkt = Some m -> match handshake_status (tc_handshake c), m with H_UNKNOWN, PResponse _ | H_IN_PROGRESS, PSeed _ => False | _, _ => True end) ->
  msafe (process_handshake_packet P c pkt a).
Proof.
  intros RO N. unfold process_handshake_packet.
  assert (Hs : forall h, match tc_handshake c with Some h => Some h | None => create_handshake c end = Some h -> hs_status h = handshake_status (tc_handshake c)).
  { intros h. destruct (tc_handshake c) as [h0|]; intros E; [apply Some_inj in E; subst; reflexivity|]. unfold create_handshake, handshake_create in E.
    destruct (chain_copy (Some (tc_local c))); [|discriminate]. destruct (_ =? _); [discriminate|]. apply Some_inj in E. subst h. reflexivity. }
  destruct (match tc_handshake c with Some h => Some h | None => create_handshake c end) as [h|]; [|apply msafe_ret].
  apply msafe_bind. { apply process_safe; [exact RO|]. rewrite (Hs h eq_refl). exact N. }
  intros [[h' v] asked] _ _ _. cbv zeta. apply msafe_bind.
  - destruct asked as [i|]; [|apply msafe_ret]. destruct a as [v'|]; [|apply msafe_ret]. apply msafe_bind; [apply identity_complete_safe|]. intros [c2 ev] _ _ _. apply msafe_ret.
  - intros [c2 ev] _ _ _. apply msafe_bind; [apply after_safe|]. intros [c3 ev3] _ _ _. apply msafe_ret.
Qed.

(* the streams of a context have complete keys *)
Definition sound_key (k : stream_key) : Prop := good_key (sk_cipher k) /\ ck_cipher (sk_cipher k) = AES256_GCM.
Definition sound_stream (o : option stream_ctx) : Prop := forall x, o = Some x -> sound_key (sc_key x) /\ forall g, sc_iv x = Some g -> si_cipher g = AES256_GCM.
Lemma evolve_turn_sound k k' : ck_cipher (sk_cipher k) = AES256_GCM -> evolve_turn P k = Some k' -> sound_key k'.
Proof.
  intros G. unfold evolve_turn, stream_key_create_with_evo_buffer. destruct (hmac_create _ _ _ _); [|discriminate]. destruct (buffer_copy_section _ _ _); [|discriminate]. destruct (buffer_copy_section _ _ _); [|discriminate].
  destruct (cipher_key_create _ _) as [ck|] eqn:E; [|discriminate]. unfold stream_key_create, stream_key_create_user_data. destruct (_ || _); [discriminate|]. intros H. apply Some_inj in H. subst k'.
  split; [exact (created_key_good _ _ _ E)|]. unfold cipher_key_create in E. destruct (_ =? _); [|discriminate]. apply Some_inj in E. subst ck. exact G.
Qed.
Lemma evolve_loop_sound n k k' : sound_key k -> evolve_loop P n k = Some k' -> sound_key k'.
Proof.
  intros G. unfold evolve_loop. revert k'. induction n as [|n IH] using N.peano_ind; intros k' H.
  - apply Some_inj in H. subst k'. exact G.
  - rewrite N.iter_succ in H. destruct (N.iter n _ (Some k)) as [k1|]; [|discriminate]. exact (evolve_turn_sound _ _ (proj2 (IH k1 eq_refl)) H).
Qed.
Lemma evolve_sound x n k : sound_key (sc_key x) -> evolve_key_material P x n = Some k -> sound_key k.
Proof.
  intros G. unfold evolve_key_material. cbv zeta. destruct (_ <? _); [discriminate|]. destruct (_ =? _); [intros H; apply Some_inj in H; subst; exact G|].
  destruct (stream_key_copy (Some (sc_key x))) as [k0|] eqn:E; [|discriminate]. apply stream_key_copy_same in E. subst k0. apply evolve_loop_sound, G.
Qed.
Lemma iv_size g v g' : stream_iv_generate P g = (Some v, g') -> iv_len (si_cipher g) <= blen v.
Proof.
  unfold stream_iv_generate, hmac_create. destruct (blen (p_hmac P SHA512 (si_seed g) (le_enc 8 (si_count g))) =? digest_size SHA512) eqn:E; cbn [negb]; [|discriminate].
  intros H. apply pair_equal_spec in H. destruct H as [H _]. apply Some_inj in H. subst v. apply N.eqb_eq in E. change (digest_size SHA512) with 64 in E. unfold blen in *. rewrite firstn_length.
  destruct (si_cipher g); cbn [iv_len]; lia.
Qed.
Lemma generate_cipher g v g' : stream_iv_generate P g = (v, g') -> si_cipher g' = si_cipher g.
Proof. unfold stream_iv_generate. destruct (hmac_create _ _ _ _); intros H; apply pair_equal_spec in H; destruct H as [_ H]; subst g'; reflexivity. Qed.
Lemma encode_pkt_sound tx d : rand_ok P -> sound_stream (Some tx) -> rsafe (fst (encode_pkt P tx d)) /\ sound_stream (Some (snd (encode_pkt P tx d))).
Proof.
  intros RO S. destruct (S tx eq_refl) as [[G1 G2] Gi]. unfold encode_pkt. cbv zeta. destruct (tmeta_serialize _) as [aad|] eqn:Ea; [|split; [discriminate|exact S]].
  assert (La : blen aad <= INT_MAX).
  { unfold tmeta_serialize, meta_data in Ea. cbn [tm_body] in Ea. apply buffer_create_Some in Ea. destruct Ea as [-> _]. unfold blen. cbn [length]. rewrite le_enc_length. discriminate. }
  unfold stream_ctx_encode. destruct (_ || _); [split; [discriminate|exact S]|]. destruct (sc_iv tx) as [g|] eqn:Ei; [|split; [discriminate|exact S]].
  destruct (stream_iv_generate P g) as [iv g'] eqn:Eg. cbv zeta. pose proof (generate_cipher _ _ _ Eg) as Cg. rewrite (Gi g eq_refl) in Cg.
  destruct iv as [v|].
  2:{ split; [discriminate|]. intros x E. apply Some_inj in E. subst x. cbn [snd sc_key sc_iv]. split; [split; assumption|]. intros y E. apply Some_inj in E. subst y. exact Cg. }
  destruct (evolve_key_material P tx (wadd64 (sc_last tx) 1)) as [k|] eqn:Ek.
  2:{ split; [discriminate|]. intros x E. apply Some_inj in E. subst x. cbn [snd sc_key sc_iv]. split; [split; assumption|]. intros y E. apply Some_inj in E. subst y. exact Cg. }
  apply evolve_sound in Ek; [|split; assumption]. split.
  - cbn [fst]. apply rsafe_bind.
    + apply encrypt_iv_safe; [exact RO|exact La|]. intros w k0 E1 E2. apply Some_inj in E1, E2. subst w k0. destruct Ek as [_ ->]. rewrite <- (Gi g eq_refl). exact (iv_size _ _ _ Eg).
    + intros r _. apply rsafe_bind; [apply rsafe_lift|]. intros; apply rsafe_lift.
  - intros x E. apply Some_inj in E. subst x. cbn [snd sc_key sc_iv]. split; [exact Ek|]. intros y E. apply Some_inj in E. subst y. exact Cg.
Qed.
Lemma decode_pkt_sound rx pkt pad : sound_stream (Some rx) -> rsafe (fst (decode_pkt P rx pkt pad)) /\ sound_stream (Some (snd (decode_pkt P rx pkt pad))).
Proof.
  intros S. destruct (S rx eq_refl) as [G Gi]. unfold decode_pkt. pose proof (result_parse_safe (Some (tp_body pkt))) as Sf.
  destruct (cipher_result_from_buffer (Some (tp_body pkt))) as [r| |] eqn:Er; [|split; [discriminate|exact S]|congruence]. apply result_parse_inv in Er. destruct Er as [Gr _].
  destruct (negb _); [split; [discriminate|exact S]|]. destruct (tmeta_serialize _) as [aad|]; [|split; [discriminate|exact S]].
  unfold stream_ctx_decode. destruct (_ || _); [split; [discriminate|exact S]|]. destruct (evolve_key_material P rx _) as [k|] eqn:Ek; [|split; [discriminate|exact S]].
  apply evolve_sound in Ek; [|exact G]. split; [apply decrypt_safe; [apply Ek|exact Gr]|]. intros x E. apply Some_inj in E. subst x. split; [exact Ek|exact Gi].
Qed.
Definition sound (c : transport) : Prop := sound_stream (tc_tx c) /\ sound_stream (tc_rx c) /\ (tc_status c = T_ACTIVE -> tc_tx c <> None).
Lemma step_safe c o : rand_ok P -> sound c -> ~ wrong_variant c o -> msafe (transport_step P c o).
Proof.
  intros RO (S1 & S2 & S3) W. destruct o as [|d|b a pad|v]; cbn [transport_step].
  - unfold transport_start. destruct (tc_status c); try apply msafe_ret. destruct (create_handshake c) as [h|]; [|apply msafe_ret].
    apply msafe_bind; [apply start_safe|]. intros [h' [p|]] _ _ _; [|destruct (hs_status h'); apply msafe_ret].
    destruct (hs_status h'); try apply msafe_ret; (destruct (tpacket_serialize p); [|apply msafe_ret]; destruct (update_status _ _); apply msafe_ret).
  - unfold process_tx_buffer. destruct d as [d|]; [|apply msafe_ret]. destruct (tc_status c) eqn:St; try (destruct (tc_tx c); apply msafe_ret). destruct (tc_tx c) as [tx|] eqn:Et; [|destruct (S3 eq_refl eq_refl)].
    destruct (encode_pkt_sound tx d RO S1) as [Sf _]. destruct (encode_pkt P tx d) as [r tx']. cbn [fst] in Sf. cbv zeta. apply msafe_bind; [apply msafe_res, rsafe_try, Sf|].
    intros [p|] _ _ _; [|apply msafe_ret]. destruct (tpacket_serialize p); apply msafe_ret.
  - unfold process_rx_buffer. destruct b as [b|]; [|apply msafe_ret].
    assert (X : msafe (packet <-= rtry (tpacket_create_from_buffer (Some b)) ;;
      match packet with
      | None => mret (set_error E_INVALID_RXDATA c)
      | Some pkt =>
          if can_process_handshake c && (body_type (tm_body (tp_meta pkt)) =? 0) then process_handshake_packet P c pkt a
          else match tc_rx c with
               | Some rx =>
                   let '(r, rx') := decode_pkt P rx pkt pad in
                   let c := set_streams (tc_tx c) (Some rx') c in
                   d <-= rtry r ;;
                   match d with
                   | None => mret (set_error E_PACKET_DECODE_FAILED c)
                   | Some data => mret (c, [EvRx data])
                   end
               | None => mret (set_error E_BAD_RX_STATE c)
               end
      end)%m).
    { apply msafe_bind; [apply msafe_res, rsafe_try, packet_parse_safe|]. intros pk s s' E. apply mres_Val in E. destruct E as [E _]. destruct pk as [pkt|]; [|apply msafe_ret].
      unfold rtry in E. destruct (tpacket_create_from_buffer (Some b)) as [pkt'| |] eqn:Pb; try discriminate. apply Val_inj in E. apply Some_inj in E. subst pkt'.
      destruct (can_process_handshake c && _).
      - apply handshake_packet_safe; [exact RO|]. intros m Em. 
        assert (K : (match handshake_status (tc_handshake c), m with H_UNKNOWN, PResponse _ | H_IN_PROGRESS, PSeed _ => True | _, _ => False end) -> False).
        { intros X. apply W. exists b, a, pad, pkt, m. auto. }
        destruct (handshake_status (tc_handshake c)), m; try exact I; exact (K I).
      - destruct (tc_rx c) as [rx|]; [|apply msafe_ret]. destruct (decode_pkt_sound rx pkt pad S2) as [Sf _]. destruct (decode_pkt P rx pkt pad) as [r rx']. cbn [fst] in Sf. cbv zeta.
        apply msafe_bind; [apply msafe_res, rsafe_try, Sf|]. intros [d|] _ _ _; apply msafe_ret. }
    destruct (tc_status c); [exact X|exact X|exact X|apply msafe_ret].
  - apply identity_complete_safe.
Qed.
Lemma fresh_sound c : fresh P c -> sound c.
Proof.
  intros (_ & _ & ks & kr & Gs & Gr & tx & rx & s1 & s1' & s2 & s2' & E1 & E2 & C1 & C2).
  assert (X : forall k d s x s', good_stream_key k -> stream_ctx_create P (Some k) d s = (Val x, s') -> sound_stream (Some x)).
  { intros k d s x s' G C y E. apply Some_inj in E. subst y. destruct G as (Gc & Gk & _). unfold stream_ctx_create in C. rewrite Gc in C. cbn [is_authenticated negb] in C.
    apply mbind_Val in C. destruct C as (iv & s3 & Ci & C). apply mret_Val in C. destruct C as [-> _]. cbn [sc_key sc_iv]. split; [split; assumption|]. intros g ->.
    destruct d; [|apply mret_Val in Ci; destruct Ci; discriminate]. apply mbind_Val in Ci. destruct Ci as (f & s4 & Cf & Ci). apply mret_Val in Ci. destruct Ci as [Ci _]. apply Some_inj in Ci. subst f.
    apply mbind_Val in Cf. destruct Cf as (sd & s5 & _ & Cf). apply mret_Val in Cf. destruct Cf as [-> _]. reflexivity. }
  split; [rewrite E1; exact (X _ _ _ _ _ Gs C1)|]. split; [rewrite E2; exact (X _ _ _ _ _ Gr C2)|]. intros _. rewrite E1. discriminate.
Qed.
Lemma waiting_sound c : waiting c -> sound c.
Proof. intros (A & B & C). split; [rewrite A; discriminate|]. split; [rewrite B; discriminate|]. intros D. destruct (C D). Qed.
Lemma sound_reach l pinned evo c0 hist c : rand_ok P -> sha_ok P -> copyable pinned -> transport_create l pinned evo = Some c0 -> reach P c0 hist c -> sound c.
Proof.
  intros RO SO Cp C R. induction R as [|hist c o s c' ev R IH S].
  - unfold transport_create in C. destruct l as [l|]; [|discriminate]. destruct (_ <? _); [discriminate|]. apply Some_inj in C. subst c0. apply waiting_sound. split; [reflexivity|]. split; [reflexivity|discriminate].
  - destruct (tinv_reach _ _ _ _ _ _ _ SO Cp C R) as [E T]. apply fst_Val3 in S. destruct S as [s' S]. destruct T as [[W Ph]|[Rn _]].
    + destruct (waiting_step P hist c o s c' ev s' SO ltac:(rewrite E; exact Cp) W Ph S) as (H1 & _). destruct H1 as [[W' _]|[F _]]; [apply waiting_sound, W'|apply fresh_sound, F].
    + destruct IH as (S1 & S2 & _). destruct (running_step P c o s c' ev s' Rn S) as ((_ & _ & (tx' & Et) & _) & _ & H).
      assert (N : tc_status c' = T_ACTIVE -> tc_tx c' <> None) by (intros _; rewrite Et; discriminate).
      destruct H as [(H1 & H2 & _)|[(d & tx & _ & _ & H1 & H2 & H3 & _)|(b & an & pad & pkt & rx & _ & _ & _ & H1 & H2 & H3 & _)]].
      * split; [rewrite H1; exact S1|]. split; [rewrite H2; exact S2|exact N].
      * split; [|split; [rewrite H2; exact S2|exact N]]. rewrite H3. rewrite H1 in S1. apply (encode_pkt_sound tx d RO S1).
      * split; [rewrite H2; exact S1|]. split; [|exact N]. rewrite H3. rewrite H1 in S2. apply (decode_pkt_sound rx pkt pad S2).
Qed.
Theorem only_wrong_variant l pinned evo c0 hist c o s : rand_ok P -> sha_ok P -> copyable pinned -> transport_create l pinned evo = Some c0 -> reach P c0 hist c ->
  ~ wrong_variant c o -> fst (transport_step P c o s) <> UB.
Proof. intros RO SO Cp C R W. apply step_safe; [exact RO| |exact W]. exact (sound_reach _ _ _ _ _ _ RO SO Cp C R). Qed.
End Safety.
