(* Which calls on messages and contexts can misuse memory, and what a decoded payload was opened with. *)
From Verif.Base Require Import Bytes Monad.
From Verif.Model Require Import Buffer Cipher Ecdsa Kdf Prims Engine Proto Identity Node EcdhCipher Keys Payload Exchange Packet Ctx.
From Verif.Spec Require Import BufferSpec CodecSpec EngineSpec IdentitySpec KeysSpec MessageSpec CtxSpec.
From Verif.Proofs Require Import BytesFacts BufferFacts BufferProps ProtoFacts CodecFacts EngineFacts IdentityFacts CacheFacts IdentityProps KeysFacts MessageFacts SafetyFacts PacketFacts CtxFacts.
From Coq Require Import ZifyBool ZifyNat ZifyN.
Ltac Zify.zify_post_hook ::= Z.div_mod_to_equations.
Local Open Scope N_scope.

(* --- decryption *)
Lemma decrypt_len P r aad key oa v : ctr_ok P -> aead_len_ok P -> aes256_decrypt P r aad key oa = Val v -> blen v < two64.
Proof.
  intros CO AL. unfold aes256_decrypt. destruct r as [r|]; [|discriminate]. destruct key as [key|]; [|discriminate]. destruct (cr_text r) as [ct|]; [|discriminate]. cbv zeta.
  destruct (oa && _); [discriminate|]. destruct (match aad with Some _ => _ | None => _ end); [discriminate|].
  destruct (N.ltb_spec INT_MAX (blen ct)) as [L|L]; [rewrite orb_true_r; discriminate|]. destruct (negb _ || _); [discriminate|]. destruct (is_authenticated _ && _); [discriminate|]. destruct (negb _); [discriminate|]. destruct (_ || _); [discriminate|].
  intros H. assert (E : length v = length ct).
  { destruct (cr_cipher r).
    - apply lift_Val' in H. exact (AL _ _ _ _ _ _ H).
    - apply Val_inj in H. subst v. apply CO. }
  unfold blen in *. rewrite E. unfold two64, INT_MAX in *. lia.
Qed.
Lemma hash_safe P m p : good_kdf_meta m -> rsafe (perform_kdf_meta P (Some m) (Some p)).
Proof.
  intros (I & _ & s & E & L). unfold perform_kdf_meta. apply rsafe_bind; [|intros h _; apply rsafe_bind; [apply rsafe_lift|intros; apply rsafe_lift]].
  unfold kdf_algo_hash.
  assert (SC : forall a, km_algo m = a -> rsafe (scrypt_generate_hash P m p)).
  { intros a _. unfold scrypt_generate_hash. rewrite E. destruct (size_ok _); [|discriminate]. apply rsafe_lift. }
  assert (BC : km_algo m = KDF_BCRYPT_15 -> rsafe (bcrypt_generate_hash P m p)).
  { intros A. unfold bcrypt_generate_hash. rewrite E. rewrite A in L. change (ka_salt_size KDF_BCRYPT_15) with 22 in L. destruct (negb _); [discriminate|].
    destruct (_ && _); [|discriminate]. destruct (_ && _); [|discriminate]. rewrite L. change (7 + 22 <? 64) with true. apply rsafe_bind; [apply rsafe_lift|intros; apply rsafe_lift]. }
  cbn [In] in I. destruct I as [I|[I|[I|[I|[I|[]]]]]]; rewrite <- I; [apply (SC _ eq_refl)|apply (SC _ eq_refl)|apply (SC _ eq_refl)|apply (SC _ eq_refl)|apply BC; symmetry; exact I].
Qed.
Lemma kdf_key_good r c k : cipher_key_from_kdf r c = Some k -> good_key k.
Proof.
  unfold cipher_key_from_kdf. destruct r as [x|]; [|discriminate]. destruct (negb _); [discriminate|]. destruct (buffer_copy _); [|discriminate]. apply created_key_good.
Qed.
Lemma kdf_decipher_safe P b p : rsafe (kdf_decipher P b p).
Proof.
  unfold kdf_decipher. destruct b as [b|]; [|discriminate]. destruct p as [p|]; [|discriminate]. apply rsafe_bind; [apply kdf_size_safe|]. intros n _. destruct (negb _); [|discriminate].
  apply rsafe_bind; [apply kdf_parse_safe|]. intros m Hm. apply kdf_parse_inv in Hm. destruct Hm as [Hm _]. apply rsafe_bind; [apply hash_safe, Hm|]. intros kr _.
  apply rsafe_bind; [apply result_parse_safe|]. intros r Hr. apply result_parse_inv in Hr. destruct Hr as [Hr _]. apply rsafe_bind; [apply rsafe_lift|]. intros k Hk. apply lift_Val' in Hk.
  apply decrypt_safe; [exact (kdf_key_good _ _ _ Hk)|exact Hr].
Qed.

(* --- messages *)
Lemma set_parse_good P b s l : exchange_set_create_from_buffer P (Some b) = Val s -> xs_items s = map Some l -> Forall (fun x => good_result (kx_text x)) l.
Proof.
  unfold exchange_set_create_from_buffer. destruct (pb_exchange_set_unpack b) as [m|]; [|discriminate]. cbn [lift rbind]. unfold exchange_set_create_with_proto. cbv zeta.
  destruct (_ || _); [discriminate|]. destruct (negb _); [discriminate|]. intros H E. apply rbind_Val in H. destruct H as (items & H1 & H). apply rbind_Val in H. destruct H as (k & _ & H).
  apply lift_Val' in H. apply Some_inj in H. subst s. cbn [xs_items] in E. destruct (parsed_items _ _ H1) as (l' & E' & F). rewrite E' in E.
  assert (Q : l' = l). { clear - E. revert l E. induction l' as [|a l' IH]; intros [|b l] E; [reflexivity|discriminate|discriminate|]. cbn [map] in E. injection E as E1 E2. f_equal; [exact E1|apply IH, E2]. }
  subst l'. eapply Forall_impl; [|exact F]. intros x [_ H]. exact H.
Qed.
Lemma derive_data_safe P s r k x psk v : good_result (kx_text x) -> rsafe (exchange_derive_data P s r k (Some x) psk v).
Proof.
  intros G. unfold exchange_derive_data. destruct s as [s|]; [|discriminate]. destruct r as [r|]; [|discriminate]. destruct (nd_keypair r) as [kp|]; [|discriminate].
  apply rsafe_bind; [apply rsafe_lift|]. intros l _. apply rsafe_bind; [apply rsafe_lift|]. intros c _. apply rsafe_bind; [apply rsafe_lift|]. intros m _. apply decipher_safe, G.
Qed.
Lemma derive_data_len P s r k x psk v b : ctr_ok P -> aead_len_ok P -> exchange_derive_data P s r k x psk v = Val b -> blen b < two64.
Proof.
  intros CO AL. unfold exchange_derive_data. destruct s as [s|]; [|discriminate]. destruct r as [r|]; [|discriminate]. destruct x as [x|]; [|discriminate]. destruct (nd_keypair r) as [kp|]; [|discriminate].
  intros H. apply rbind_Val in H. destruct H as (l & _ & H). apply rbind_Val in H. destruct H as (c & _ & H). apply rbind_Val in H. destruct H as (m & _ & H).
  unfold ecdh_decipher in H. destruct k as [k|]; [|discriminate]. destruct (negb _); [discriminate|]. apply rbind_Val in H. destruct H as (key & _ & H). exact (decrypt_len _ _ _ _ _ _ CO AL H).
Qed.
Lemma derive_key_safe P s r k x psk v : good_result (kx_text x) -> rsafe (exchange_derive_packet_key P s r k (Some x) psk v).
Proof.
  intros G. unfold exchange_derive_packet_key. destruct s as [s|]; [|discriminate]. destruct r as [r|]; [|discriminate]. apply rsafe_bind; [apply rsafe_try, derive_data_safe, G|]. intros b _. apply key_parse_safe.
Qed.
Lemma derive_key_good P s r k x psk v key : ctr_ok P -> aead_len_ok P -> exchange_derive_packet_key P s r k x psk v = Val key -> good_key key.
Proof.
  intros CO AL. unfold exchange_derive_packet_key. destruct s as [s|]; [|discriminate]. destruct r as [r|]; [|discriminate]. destruct x as [x|]; [|discriminate]. intros H.
  apply rbind_Val in H. destruct H as (b & Hb & H). apply rtry_Val in Hb. destruct b as [b|]; [|discriminate]. apply (derive_data_len _ _ _ _ _ _ _ _ CO AL) in Hb. exact (proj1 (key_parse_inv _ _ Hb H)).
Qed.
Lemma payload_open_safe P r k : good_result r -> good_key k -> rsafe (payload_create_from_cipher P (Some r) (Some k)).
Proof. intros G K. unfold payload_create_from_cipher. apply rsafe_bind; [apply decrypt_safe; assumption|intros; apply rsafe_lift]. Qed.

(* what a parse result that was accepted contains *)
Definition accepted (P : prims) (r : parse_result) : Prop := exists h x pc, r = parse_success (Some h) (Some x) (Some pc) /\ good_result (kx_text x) /\ good_result pc.
Lemma parse_accepted P kg p i s r : parse_result_from_packet P kg (Some p) (Some i) (Some s) = Val r -> pa_err r = E_SUCCESS -> accepted P r.
Proof.
  intros H E. apply parse_success_inv in H; [|exact E]. destruct H as (_ & _ & m & hc & hk & b & h & l & x & pc & _ & _ & _ & _ & Q & L & F & PP & R).
  exists h, x, pc. split; [exact R|]. split; [|exact (proj1 (result_parse_inv _ _ PP))]. pose proof (set_parse_good _ _ _ _ Q L) as G. rewrite Forall_forall in G. apply G.
  destruct F as (l1 & l2 & -> & _). apply in_or_app; right; left; reflexivity.
Qed.
Lemma decode_step_eq P p h x pc dev rk rc s : decode_result_from_parse_result P p (Some (parse_success (Some h) (Some x) (Some pc))) dev (Some rk) rc s =
  rbind (rtry (exchange_derive_packet_key P s (Some {| nd_dev_id := dev; nd_chain := rc; nd_keypair := Some {| kp_identifier := 0; kp_key := rk; kp_signature := None |}; nd_status := S_UNKNOWN; nd_cache := None |})
    (Some (xs_sender h)) (Some x) None (pt_version p))) (fun key => match key with
    | None => Val (decode_failure ERROR_KEY_EXCHANGE_FAILED)
    | Some k => rbind (rtry (payload_create_from_cipher P (Some pc) (Some k))) (fun pl => match pl with
       | None => Val (decode_failure ERROR_KEY_EXCHANGE_FAILED) | Some y => Val (decode_success y k) end)
    end).
Proof. reflexivity. Qed.
Lemma decode_accepted_safe P p r dev rk rc s : ctr_ok P -> aead_len_ok P -> accepted P r -> decode_result_from_parse_result P p (Some r) dev rk rc s <> UB.
Proof.
  intros CO AL (h & x & pc & -> & Gx & Gp). destruct rk as [rk|]; [|discriminate]. rewrite decode_step_eq. apply rsafe_bind; [apply rsafe_try, derive_key_safe, Gx|].
  intros [k|] H; [|discriminate]. apply rtry_Val in H. apply (derive_key_good _ _ _ _ _ _ _ _ CO AL) in H. apply rsafe_bind; [apply rsafe_try, payload_open_safe; assumption|]. intros [y|] _; discriminate.
Qed.
Lemma decode_refused_safe P p r dev rk rc s : pa_err r <> E_SUCCESS -> decode_result_from_parse_result P p (Some r) dev rk rc s <> UB.
Proof. intros E. unfold decode_result_from_parse_result. destruct rk; [|discriminate]. destruct (pa_err r); [destruct (E eq_refl)|discriminate..]. Qed.
Lemma read_parse_safe P b i s : ctx_read_packet P b i (Some s) <> UB.
Proof.
  unfold ctx_read_packet. destruct b as [b|]; [|discriminate]. apply rsafe_bind; [apply packet_parse_safe|]. intros p _. apply rsafe_bind; [apply parse_safe|].
  - intros c k H. apply header_key_Some in H. apply H.
  - intros r _. apply rsafe_bind; [apply rsafe_lift|intros; apply rsafe_lift].
Qed.
(* receiving a message: any bytes, any key pair *)
Lemma receive_safe P c c' b s rk : ctr_ok P -> aead_len_ok P ->
  ctx_parse_packet P (Some c) b (Some s) <> UB /\ forall q, ctx_parse_packet P (Some c) b (Some s) = Val q -> ctx_decode_packet P (Some c') (Some q) rk <> UB.
Proof.
  intros CO AL. split; [apply read_parse_safe|]. intros q H. cbn [ctx_parse_packet] in H. destruct b as [b|]; [|discriminate]. apply read_inv in H. destruct H as (_ & H & _). cbn [ctx_decode_packet].
  destruct (pa_err (cp_parse q)) eqn:E; try (apply decode_refused_safe; rewrite E; discriminate).
  apply decode_accepted_safe; [exact CO|exact AL|exact (parse_accepted _ _ _ _ _ _ H E)].
Qed.
(* the payload of a successful decode was opened with its tag, under a key the sender signed for *)
Lemma ctx_payload_opened P c c' b s q rk d : ctr_ok P -> aead_len_ok P -> ctx_parse_packet P (Some c) (Some b) (Some s) = Val q ->
  ctx_decode_packet P (Some c') (Some q) (Some rk) = Val d -> de_err d = E_SUCCESS ->
  sender_verifies P (cp_packet q) s /\ exists r k plain pl, de_key d = Some k /\ de_payload d = Some pl /\ opened P r (ck_data k) [] plain /\ payload_create_from_buffer (Some plain) = Some pl /\ pa_payload (cp_parse q) = Some r.
Proof.
  intros CO AL H D E. cbn [ctx_parse_packet] in H. apply read_inv in H. destruct H as (_ & H & _). cbn [ctx_decode_packet] in D.
  destruct (pa_err (cp_parse q)) eqn:EE; try (exfalso; revert D; unfold decode_result_from_parse_result; rewrite EE; discriminate).
  split; [exact (proj1 (parse_success_inv _ _ _ _ _ _ H EE))|]. destruct (parse_accepted _ _ _ _ _ _ H EE) as (h & x & pc & R & Gx & Gp). rewrite R in D. rewrite decode_step_eq in D.
  apply rbind_Val in D. destruct D as (k & Hk & D). apply rtry_Val in Hk. destruct k as [k|]; [|apply Val_inj in D; subst d; discriminate]. apply (derive_key_good _ _ _ _ _ _ _ _ CO AL) in Hk.
  apply rbind_Val in D. destruct D as (pl & Hp & D). apply rtry_Val in Hp. destruct pl as [pl|]; [|apply Val_inj in D; subst d; discriminate]. apply Val_inj in D. subst d.
  unfold payload_create_from_cipher in Hp. apply rbind_Val in Hp. destruct Hp as (plain & Ho & Hp). apply lift_Val' in Hp. exists pc, k, plain, pl. cbn [decode_success de_key de_payload]. split; [reflexivity|]. split; [reflexivity|].
  split; [exact (proj2 (decrypt_opened P pc None k plain Hk Gp ltac:(discriminate) Ho))|]. split; [exact Hp|]. rewrite R. reflexivity.
Qed.

(* --- generating contexts *)
Lemma key_random_safe P : msafe (cipher_key_random P default_cipher).
Proof. unfold cipher_key_random. apply msafe_bind; [apply random_safe; split; [reflexivity|discriminate]|]. intros; apply msafe_lift. Qed.
Lemma generate_safe P : msafe (root_keys_generate P).
Proof.
  unfold root_keys_generate. apply msafe_bind; [apply key_random_safe|]. intros a _ _ _. apply msafe_bind; [apply key_random_safe|]. intros b _ _ _.
  apply msafe_bind; [apply msafe_try, rand_key_safe|]. intros; apply msafe_lift.
Qed.
Lemma node_gen_safe P r i : msafe (node_identity_gen P r i).
Proof.
  unfold node_identity_gen. destruct r as [r|]; [|apply msafe_null]. destruct (id_type r); [|apply msafe_null]. apply msafe_bind; [apply rand_key_safe|]. intros k _ _ _.
  apply msafe_bind; [apply identity_sign_safe|]. intros sg _ _ _. apply msafe_bind; [destruct i; [apply msafe_lift|apply random_safe; split; [reflexivity|discriminate]]|]. intros; apply msafe_lift.
Qed.
Lemma tail_safe P i k ch : msafe (gen_tail P i k ch).
Proof.
  unfold gen_tail. apply msafe_bind; [apply msafe_lift|]. intros st _ _ _. apply msafe_bind; [apply msafe_lift|]. intros ic _ _ _. apply msafe_bind; [apply msafe_lift|]. intros c _ _ _.
  apply msafe_bind; [apply key_random_safe|]. intros; apply msafe_lift.
Qed.
Lemma gen_safe P i k id : msafe (ctx_gen_with_root_keys P i k id).
Proof.
  destruct i as [i|]; [|apply msafe_null]. destruct k as [k|]; [|apply msafe_null]. destruct id as [id|]; [|apply msafe_null]. rewrite gen_eq.
  apply msafe_bind; [apply msafe_lift|]. intros sk _ _ _. apply msafe_bind; [apply msafe_lift|]. intros idc _ _ _. apply msafe_bind; [apply msafe_lift|]. intros root _ _ _.
  apply msafe_bind; [apply node_gen_safe|]. intros node _ _ _. apply msafe_bind; [apply msafe_lift|]. intros ch _ _ _. destruct (negb _); [apply msafe_null|apply tail_safe].
Qed.
Lemma new_safe P i id : msafe (ctx_gen_new P i id).
Proof. unfold ctx_gen_new. destruct i as [i|]; [|apply msafe_null]. destruct id as [id|]; [|apply msafe_null]. apply msafe_bind; [apply generate_safe|]. intros; apply gen_safe. Qed.
Lemma new_sig_safe P i k id : msafe (ctx_gen_new_with_sig_key P i k id).
Proof.
  unfold ctx_gen_new_with_sig_key. destruct i as [i|]; [|apply msafe_null]. destruct id as [id|]; [|apply msafe_null]. apply msafe_bind; [apply generate_safe|]. intros x _ _ _.
  apply msafe_bind; [apply msafe_lift|]. intros; apply gen_safe.
Qed.
Lemma root_parse_safe P b : rsafe (root_keys_create_from_buffer P b).
Proof.
  unfold root_keys_create_from_buffer. destruct b as [b|]; [|discriminate]. apply rsafe_bind; [apply rsafe_lift|]. intros m _. destruct (pr_node m); [|discriminate]. destruct (pr_remote m); [|discriminate].
  destruct (_ <? _); [discriminate|]. apply rsafe_bind; [apply key_parse_safe|]. intros x _. apply rsafe_bind; [apply rsafe_try, key_parse_safe|]. intros y _. apply rsafe_bind; [apply rsafe_lift|]. intros; apply rsafe_lift.
Qed.
Lemma import_recovery_safe P d k : good_key k -> rsafe (ctx_gen_import_recovery P d (Some k)).
Proof.
  intros G. unfold ctx_gen_import_recovery. destruct d as [d|]; [|discriminate]. apply rsafe_bind; [apply result_parse_safe|]. intros r Hr. apply result_parse_inv in Hr. destruct Hr as [Hr _].
  apply rsafe_bind; [apply decrypt_safe; assumption|]. intros; apply root_parse_safe.
Qed.
Lemma recovery_crash P i d k id s : good_key k -> fst (ctx_gen_with_recovery P (Some i) (Some d) (Some k) (Some id) s) = UB ->
  exists keys, ctx_gen_import_recovery P (Some d) (Some k) = Val keys /\ fst (ctx_gen_with_root_keys P (Some i) (Some keys) (Some id) s) = Null.
Proof.
  intros G H. unfold ctx_gen_with_recovery in H. unfold mbind, mres in H. pose proof (import_recovery_safe P (Some d) k G) as S. destruct (ctx_gen_import_recovery P (Some d) (Some k)) as [keys| |]; [|discriminate|destruct (S eq_refl)].
  exists keys. split; [reflexivity|]. unfold mtry in H. pose proof (gen_safe P (Some i) (Some keys) (Some id) s) as T. destruct (ctx_gen_with_root_keys P (Some i) (Some keys) (Some id) s) as [[g| |] s1]; [|reflexivity|destruct (T eq_refl)].
  unfold mlift in H. destruct (cipher_key_copy (Some k)); discriminate.
Qed.
Lemma recovery_safe P i d k id s : good_key k -> (forall keys, ctx_gen_import_recovery P (Some d) (Some k) = Val keys -> fst (ctx_gen_with_root_keys P (Some i) (Some keys) (Some id) s) <> Null) ->
  fst (ctx_gen_with_recovery P (Some i) (Some d) (Some k) (Some id) s) <> UB.
Proof. intros G H E. destruct (recovery_crash P i d k id s G E) as (keys & A & B). exact (H keys A B). Qed.
Lemma import_key_good P e p k : ctr_ok P -> aead_len_ok P -> import_recovery_key_passphrase P e p = Val k -> good_key k.
Proof.
  intros CO AL. unfold import_recovery_key_passphrase. destruct e as [e|]; [|discriminate]. destruct p as [p|]; [|discriminate]. intros H. apply rbind_Val in H. destruct H as (b & Hb & H).
  assert (L : blen b < two64).
  { unfold kdf_decipher in Hb. apply rbind_Val in Hb. destruct Hb as (n & _ & Hb). destruct (negb _); [|discriminate]. apply rbind_Val in Hb. destruct Hb as (m & _ & Hb). apply rbind_Val in Hb. destruct Hb as (kr & _ & Hb).
    apply rbind_Val in Hb. destruct Hb as (r & _ & Hb). apply rbind_Val in Hb. destruct Hb as (key & _ & Hb). exact (decrypt_len _ _ _ _ _ _ CO AL Hb). }
  exact (proj1 (key_parse_inv _ _ L H)).
Qed.
Lemma import_key_safe P e p : rsafe (import_recovery_key_passphrase P e p).
Proof.
  unfold import_recovery_key_passphrase. destruct e as [e|]; [|discriminate]. destruct p as [p|]; [|discriminate]. apply rsafe_bind; [apply kdf_decipher_safe|]. intros; apply key_parse_safe.
Qed.
(* the passphrase variant fails only as the recovery key variant does *)
Lemma passphrase_crash P i e p d id s : ctr_ok P -> aead_len_ok P -> fst (ctx_gen_with_passphrase P (Some i) (Some e) (Some p) (Some d) (Some id) s) = UB ->
  exists k keys, good_key k /\ import_recovery_key_passphrase P (Some e) (Some p) = Val k /\ ctx_gen_import_recovery P (Some d) (Some k) = Val keys /\ fst (ctx_gen_with_root_keys P (Some i) (Some keys) (Some id) s) = Null.
Proof.
  intros CO AL H. pose proof (import_key_safe P (Some e) (Some p)) as S. destruct (import_recovery_key_passphrase P (Some e) (Some p)) as [k| |] eqn:K.
  - rewrite (passphrase_eq P i e p d id k K) in H. pose proof (import_key_good _ _ _ _ CO AL K) as G. destruct (recovery_crash _ _ _ _ _ _ G H) as (keys & A & B). eauto 6.
  - exfalso. revert K H. unfold import_recovery_key_passphrase, ctx_gen_with_passphrase, mbind, mres. pose proof (kdf_decipher_safe P (Some e) (Some p)) as T. destruct (kdf_decipher P (Some e) (Some p)) as [b| |]; [|discriminate|destruct (T eq_refl)].
    cbn [rbind]. intros K. rewrite K. discriminate.
  - destruct (S eq_refl).
Qed.

(* --- other operations of a context *)
Lemma storage_parse_safe m : rsafe (storage_keys_create_from_proto m).
Proof.
  unfold storage_keys_create_from_proto. destruct m as [m|]; [|discriminate]. destruct (ps_local m); [|discriminate]. destruct (ps_remote m); [|discriminate]. destruct (negb _); [discriminate|].
  apply rsafe_bind; [apply key_parse_safe|]. intros x _. apply rsafe_bind; [apply key_parse_safe|]. intros; apply rsafe_lift.
Qed.
Lemma ctx_parse_safe P i b : rsafe (ctx_create_from_buffer P i b).
Proof.
  unfold ctx_create_from_buffer. destruct i as [i|]; [|discriminate]. destruct b as [b|]; [|discriminate]. unfold ctx_create_from_proto. destruct (pb_ctx_unpack b) as [m|]; [|discriminate].
  destruct (px_chain m); [|discriminate]. destruct (px_storage m); [|discriminate]. apply rsafe_bind; [apply chain_parse_safe|]. intros c _. apply rsafe_bind; [apply storage_parse_safe|]. intros; apply rsafe_lift.
Qed.
Lemma ctx_import_safe P i e p : rsafe (ctx_import P i e p).
Proof.
  unfold ctx_import. destruct i as [i|]; [|discriminate]. destruct e as [e|]; [|discriminate]. destruct p as [p|]; [|discriminate]. apply rsafe_bind; [apply kdf_decipher_safe|]. intros; apply ctx_parse_safe.
Qed.
Lemma import_storage_safe P e p : rsafe (ctx_import_storage_keys P e p).
Proof.
  unfold ctx_import_storage_keys. destruct e as [e|]; [|discriminate]. destruct p as [p|]; [|discriminate]. apply rsafe_bind; [apply kdf_decipher_safe|]. intros b _. unfold storage_keys_create_from_buffer. apply storage_parse_safe.
Qed.

(* --- statements as the properties need them *)
Lemma generation_safe P i k sk id s : fst (ctx_gen_new P i id s) <> UB /\ fst (ctx_gen_new_with_sig_key P i sk id s) <> UB /\ fst (ctx_gen_with_root_keys P i k id s) <> UB.
Proof. split; [apply new_safe|split; [apply new_sig_safe|apply gen_safe]]. Qed.
Lemma imports_safe P d k e p : good_key k -> ctx_gen_import_recovery P d (Some k) <> UB /\ import_recovery_key_passphrase P e p <> UB.
Proof. intros G. split; [apply import_recovery_safe, G|apply import_key_safe]. Qed.
Lemma new_recovered P i1 id1 s0 g s0' s d s' i2 id2 s2 g2 s2' : ec_ok P -> gen_ok P -> sign_ok P -> sha_ok P -> rand_ok P -> ctr_ok P -> aead_ok P ->
  ctx_gen_new P (Some i1) (Some id1) s0 = (Val g, s0') -> make_recovery P (Some g) s = (Val d, s') ->
  ctx_gen_import_recovery P (Some d) (Some (gr_recovery_key g)) = Val (gr_root_keys g) /\
  (ctx_gen_with_recovery P (Some i2) (Some d) (Some (gr_recovery_key g)) (Some id2) s2 = (Val g2, s2') ->
    generated P i2 (gr_root_keys g) id2 g2 /\ gr_recovery_key g2 = gr_recovery_key g /\
    id_key (ch_root (cx_chain (gr_ctx g2))) = id_key (ch_root (cx_chain (gr_ctx g))) /\ sk_remote (cx_storage (gr_ctx g2)) = sk_remote (cx_storage (gr_ctx g))).
Proof.
  intros EO GO SO SH RO CO AO N MR. destruct (new_inv P i1 id1 s0 g s0' EO GO SO SH RO N) as (k & G & GG). pose proof GG as GG'.
  destruct GG' as (_ & _ & EK & _ & _ & _ & E1 & _ & _ & E2 & _ & _ & C). rewrite EK. split.
  - exact (recovery_import P k _ s d s' g EO GO CO AO G EK eq_refl C MR).
  - intros H. destruct (recovered P i1 k id1 g _ d s s' i2 id2 s2 g2 s2' EO GO SO SH RO CO AO G GG eq_refl MR H) as [G2 R]. split; [exact G2|]. split; [exact R|].
    destruct G2 as (_ & _ & _ & _ & _ & _ & F1 & _ & _ & F2 & _). split; congruence.
Qed.
Lemma new_recovery_succeeds P i1 id1 s0 g s0' i2 id2 s s2 : never_fails P -> ec_ok P -> gen_ok P -> sign_ok P -> sha_ok P -> rand_ok P -> ctr_ok P -> aead_ok P ->
  ctx_gen_new P (Some i1) (Some id1) s0 = (Val g, s0') -> good_dev_info P i2 -> 0 < blen id2 < 128 ->
  exists d s', make_recovery P (Some g) s = (Val d, s') /\
  exists g2 s2', ctx_gen_with_recovery P (Some i2) (Some d) (Some (gr_recovery_key g)) (Some id2) s2 = (Val g2, s2').
Proof.
  intros NF EO GO SO SH RO CO AO N D L. destruct (new_inv P i1 id1 s0 g s0' EO GO SO SH RO N) as (k & G & GG). pose proof GG as GG'.
  destruct GG' as (_ & _ & EK & _ & _ & _ & _ & _ & _ & _ & _ & GK & C). destruct (make_recovery_succeeds P k g s NF EO GO RO AO CO G EK GK C) as (d & s' & M).
  exists d, s'. split; [exact M|]. exact (recovery_succeeds P i1 k id1 g d s s' i2 id2 s2 NF EO GO SO SH RO CO AO G GG M D L).
Qed.
Lemma passphrase_same P g p s e s' : ctr_ok P -> aead_ok P -> good_key (gr_recovery_key g) -> export_recovery_key_passphrase P (Some g) (Some p) s = (Val e, s') ->
  import_recovery_key_passphrase P (Some e) (Some p) = Val (gr_recovery_key g) /\
  forall i d id s2, ctx_gen_with_passphrase P (Some i) (Some e) (Some p) (Some d) (Some id) s2 = ctx_gen_with_recovery P (Some i) (Some d) (Some (gr_recovery_key g)) (Some id) s2.
Proof. intros CO AO G H. pose proof (passphrase_key P g p s e s' CO AO G H) as K. split; [exact K|]. intros i d id s2. exact (passphrase_eq P i e p d id _ K s2). Qed.
Lemma two_devices P k i j si sj : root_keys_localize P (Some k) (Some i) = Some si -> root_keys_localize P (Some k) (Some j) = Some sj ->
  sk_remote si = sk_remote sj /\ (di_system_salt i = di_system_salt j -> si = sj) /\
  (no_collision_256 P (ck_data (rk_node k) ++ bytes_of (di_system_salt i)) (ck_data (rk_node k) ++ bytes_of (di_system_salt j)) ->
   sk_local si = sk_local sj -> bytes_of (di_system_salt i) = bytes_of (di_system_salt j)).
Proof.
  intros A B. apply localize_Some in A, B. destruct A as [A1 A2], B as [B1 B2]. split; [congruence|]. split.
  - intros E. destruct si as [a b], sj as [c d]. cbn [sk_local sk_remote] in *. rewrite E in A1. congruence.
  - intros NC E. rewrite A1, B1 in E. assert (H := f_equal ck_data E). cbn [ck_data] in H. apply NC in H. exact (app_inv_head _ _ _ H).
Qed.
Lemma storage_rejects_ctr P c r : cr_cipher r = AES256_CTR -> ctx_decipher_local P (Some c) (Some r) = Null /\ ctx_decipher_remote P (Some c) (Some r) = Null.
Proof. intros E. assert (N : cr_cipher r <> AES256_GCM) by congruence. split; cbn [ctx_decipher_local ctx_decipher_remote]; apply decrypt_only_auth; assumption. Qed.
Lemma new_ciphers P i id s g s' : rand_ok P -> sha_ok P -> ec_ok P -> gen_ok P -> sign_ok P -> ctx_gen_new P (Some i) (Some id) s = (Val g, s') ->
  good_storage_keys (cx_storage (gr_ctx g)) /\ ck_cipher (sk_local (cx_storage (gr_ctx g))) = AES256_GCM /\ ck_cipher (sk_remote (cx_storage (gr_ctx g))) = AES256_GCM.
Proof.
  intros RO SH EO GO SO H. unfold ctx_gen_new in H. apply mbind_Val in H. destruct H as (k & s1 & Hk & H). destruct (root_keys_generate_good P s k s1 RO Hk) as (G & C1 & C2).
  pose proof (gen_inv P i k id s1 g s' EO GO SO SH RO G H) as ((_ & _ & _ & GS & _) & _ & _ & _ & _ & _ & _ & _ & _ & E1 & E2 & _). split; [exact GS|]. rewrite E1, E2. split; [exact C1|exact C2].
Qed.
Lemma derived_unique P salt sid i j : derived_from P salt sid i -> derived_from P salt sid j -> i = j.
Proof.
  intros (A1 & A2 & A3 & _ & A4 & A5) (B1 & B2 & B3 & _ & B4 & B5). rewrite <- B3 in A3. apply app_inj_length_l' in A3; [|unfold blen in *; lia]. destruct A3 as [E1 E2].
  destruct i as [a b c d], j as [a' b' c' d']. cbn [di_dev_salt di_system_salt di_msg_proto_id di_srv_comm_id] in *. congruence.
Qed.
