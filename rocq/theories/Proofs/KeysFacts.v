(* Root keys, storage keys and device information. *)
From Verif.Base Require Import Bytes Monad.
From Verif.Model Require Import Buffer Cipher Ecdsa Kdf Prims Engine Proto Identity Keys.
From Verif.Spec Require Import BufferSpec CodecSpec EngineSpec IdentitySpec KeysSpec.
From Verif.Proofs Require Import BytesFacts BufferFacts BufferProps CodecFacts ProtoFacts EngineFacts IdentityFacts.
From Coq Require Import ZifyBool ZifyNat ZifyN.
Ltac Zify.zify_post_hook ::= Z.div_mod_to_equations.
Local Open Scope N_scope.

Lemma good_key_wire k : good_key k -> blen (key_wire k) = 33.
Proof. intros G. apply good_key_len in G. unfold key_wire. rewrite blen_cons. lia. Qed.
Lemma key_wire_parse k : good_key k -> cipher_key_from_buffer (Some (key_wire k)) = Val k.
Proof. intros G. rewrite <- (app_nil_r (key_wire k)). apply (key_parse_ok k [] G). rewrite blen_nil. unfold library_limit. lia. Qed.

(* --- storage keys *)
Definition pb_storage_ok (m : pb_storage_keys) : Prop := ps_version m < two32 /\ small (ps_local m) /\ small (ps_remote m).
Lemma pb_storage_roundtrip m : pb_storage_ok m -> pb_storage_keys_unpack (pb_storage_keys_pack m) = Some m.
Proof.
  intros (A & B & C). unfold pb_storage_keys_unpack, pb_storage_keys_pack.
  rewrite <- (app_nil_r (f_len_opt 3 _)), <- ?app_assoc.
  rewrite scan_var by (unfold two32, two64 in *; lia). rewrite !scan_len_opt by (lia || assumption). rewrite scan_nil.
  destruct m as [v l r]. cbn [ps_version ps_local ps_remote] in *. assert (E : u32 v = v) by (apply N.mod_small, A).
  destruct l, r; fields; rewrite E; reflexivity.
Qed.
Definition storage_msg (k : storage_keys) : pb_storage_keys :=
  {| ps_version := 1; ps_local := Some (key_wire (sk_local k)); ps_remote := Some (key_wire (sk_remote k)) |}.
Lemma storage_to_proto k : good_storage_keys k -> storage_keys_to_proto (Some k) = Some (storage_msg k).
Proof.
  intros [L R]. unfold storage_keys_to_proto, cipher_key_to_protobytes. rewrite (key_serialize_ok _ L), (key_serialize_ok _ R). reflexivity.
Qed.
Lemma storage_msg_ok k : good_storage_keys k -> pb_storage_ok (storage_msg k).
Proof.
  intros [L R]. split; [reflexivity|]. split; intros x H; apply Some_inj in H; subst x; rewrite good_key_wire by assumption; reflexivity.
Qed.
Lemma storage_msg_size k : good_storage_keys k -> blen (pb_storage_keys_pack (storage_msg k)) <= 200.
Proof.
  intros [L R]. unfold pb_storage_keys_pack. rewrite !blen_app. cbn [storage_msg ps_version ps_local ps_remote].
  pose proof (f_var_size 1 1). pose proof (f_len_opt_size 2 (Some (key_wire (sk_local k)))). pose proof (f_len_opt_size 3 (Some (key_wire (sk_remote k)))).
  cbn [oblen] in *. pose proof (good_key_wire _ L). pose proof (good_key_wire _ R). lia.
Qed.
Lemma storage_msg_nonempty k : pb_storage_keys_pack (storage_msg k) <> [].
Proof. unfold pb_storage_keys_pack. destruct (f_var 1 _) eqn:E; [destruct (f_var_nonempty _ _ E)|discriminate]. Qed.
Lemma nonempty_blen (b : bytes) : b <> [] -> 0 < blen b.
Proof. destruct b; [congruence|]. intros _. rewrite blen_cons. lia. Qed.
Lemma storage_from_msg k : good_storage_keys k -> storage_keys_create_from_proto (Some (storage_msg k)) = Val k.
Proof.
  intros [L R]. unfold storage_keys_create_from_proto, storage_msg. cbn [ps_local ps_remote ps_version].
  change (negb (1 =? CURRENT_STORAGE_KEY_VERSION)) with false. cbn match. unfold cipher_key_from_protobytes.
  rewrite (key_wire_parse _ L). cbn [rbind]. rewrite (key_wire_parse _ R). cbn [rbind]. destruct k; reflexivity.
Qed.
Lemma storage_serialize_ok k : good_storage_keys k -> storage_keys_serialize (Some k) = Val (pb_storage_keys_pack (storage_msg k)).
Proof.
  intros G. unfold storage_keys_serialize. rewrite (storage_to_proto k G), pack_buffer_ok; [reflexivity|].
  pose proof (storage_msg_size k G). pose proof (nonempty_blen _ (storage_msg_nonempty k)). unfold within_limit, library_limit. lia.
Qed.
Lemma storage_parse_ok k : good_storage_keys k -> storage_keys_create_from_buffer (Some (pb_storage_keys_pack (storage_msg k))) = Val k.
Proof.
  intros G. unfold storage_keys_create_from_buffer. rewrite (pb_storage_roundtrip _ (storage_msg_ok k G)). apply storage_from_msg, G.
Qed.
Lemma storage_roundtrip k : good_storage_keys k ->
  exists b, storage_keys_serialize (Some k) = Val b /\ storage_keys_create_from_buffer (Some b) = Val k.
Proof. intros G. exists (pb_storage_keys_pack (storage_msg k)). split; [apply storage_serialize_ok, G|apply storage_parse_ok, G]. Qed.

(* --- root keys *)
Definition pb_root_ok (m : pb_root_keys) : Prop :=
  pr_version m < two32 /\ small (pr_node m) /\ small (pr_remote m) /\ small (pr_signature m).
Lemma pb_root_roundtrip m : pb_root_ok m -> pb_root_keys_unpack (pb_root_keys_pack m) = Some m.
Proof.
  intros (A & B & C & D). unfold pb_root_keys_unpack, pb_root_keys_pack.
  rewrite <- (app_nil_r (f_len_opt 4 _)), <- ?app_assoc.
  rewrite scan_var by (unfold two32, two64 in *; lia). rewrite !scan_len_opt by (lia || assumption). rewrite scan_nil.
  destruct m as [v l r s]. cbn [pr_version pr_node pr_remote pr_signature] in *. assert (E : u32 v = v) by (apply N.mod_small, A).
  destruct l, r, s; fields; rewrite E; reflexivity.
Qed.
Definition root_msg (k : root_keys) (pri : bytes) : pb_root_keys :=
  {| pr_version := 1; pr_node := Some (key_wire (rk_node k)); pr_remote := Some (key_wire (rk_remote k)); pr_signature := Some pri |}.
Lemma engine_key_private P k d : ec_ok P -> gen_ok P -> engine_key P k -> ek_pri k = Some d -> 0 < blen d <= 1024 /\ ec_key_import P (Some d) true = Some k.
Proof.
  intros EO GO EK E. destruct (engine_key_importable_private P k EO GO EK) as (d' & E' & I); [congruence|]. assert (d' = d) by congruence. subst d'.
  destruct (engine_key_form P k EO GO EK) as (pub & _ & _ & _ & _ & F). apply F in E. destruct EO as (_ & D & _). apply D in E. destruct E as (_ & _ & L1 & L2).
  split; [lia|exact I].
Qed.
Lemma root_keys_roundtrip P k : ec_ok P -> gen_ok P -> good_root_keys P k ->
  exists b, root_keys_serialize (Some k) = Val b /\ b <> [] /\ blen b <= 2000 /\ root_keys_create_from_buffer P (Some b) = Val k.
Proof.
  intros EO GO (EK & NP & N & R). destruct (ek_pri (rk_signature k)) as [d|] eqn:D; [|congruence].
  destruct (engine_key_private P _ d EO GO EK D) as [Ld Id].
  set (m := root_msg k d).
  assert (NE : pb_root_keys_pack m <> []) by (unfold pb_root_keys_pack; destruct (f_var 1 _) eqn:E; [destruct (f_var_nonempty _ _ E)|discriminate]).
  assert (L : blen (pb_root_keys_pack m) <= 2000).
  { unfold pb_root_keys_pack. rewrite !blen_app. unfold m. cbn [root_msg pr_version pr_node pr_remote pr_signature].
    pose proof (f_var_size 1 1). pose proof (f_len_opt_size 2 (Some (key_wire (rk_node k)))). pose proof (f_len_opt_size 3 (Some (key_wire (rk_remote k)))).
    pose proof (f_len_opt_size 4 (Some d)). cbn [oblen] in *. pose proof (good_key_wire _ N). pose proof (good_key_wire _ R). lia. }
  exists (pb_root_keys_pack m). split; [|split; [exact NE|split; [exact L|]]].
  - unfold root_keys_serialize. rewrite D, (key_serialize_ok _ N). cbn [lift rbind]. rewrite (key_serialize_ok _ R). cbn [lift rbind].
    change {| pr_version := _; pr_node := _; pr_remote := _; pr_signature := _ |} with m. rewrite pack_buffer_ok; [reflexivity|].
    pose proof (nonempty_blen _ NE). unfold within_limit, library_limit. lia.
  - unfold root_keys_create_from_buffer. rewrite pb_root_roundtrip.
    2:{ split; [reflexivity|]. split; [|split]; intros x H; apply Some_inj in H; subst x; rewrite ?good_key_wire by assumption; try reflexivity. unfold two32. lia. }
    cbn [lift rbind]. unfold m, root_msg. cbn [pr_node pr_remote pr_version pr_signature]. change (CURRENT_ROOT_KEY_VERSION <? 1) with false. cbn match.
    unfold cipher_key_from_protobytes. rewrite (key_wire_parse _ N). cbn [rbind]. rewrite (key_wire_parse _ R). cbn [rtry rbind obytes]. rewrite Id. cbn [lift rbind].
    destruct k; reflexivity.
Qed.
Lemma random_key_good P c s k s' : rand_ok P -> cipher_key_random P c s = (Val k, s') -> good_key k /\ ck_cipher k = c.
Proof.
  intros RO H. unfold cipher_key_random in H. apply mbind_Val in H. destruct H as (b & s1 & Hb & H). apply crypto_random_Val in Hb. destruct Hb as [Hb _].
  apply mlift_Val in H. destruct H as [H _]. unfold cipher_key_create in H. destruct (N.eqb_spec (blen b) (key_len c)) as [L|]; [|discriminate].
  apply Some_inj in H. subst k. split; [|reflexivity]. apply good_key_len. cbn [ck_data]. rewrite L. apply key_len_32.
Qed.
Lemma root_keys_generate_good P s k s' : rand_ok P -> root_keys_generate P s = (Val k, s') -> good_root_keys P k /\ ck_cipher (rk_node k) = AES256_GCM /\ ck_cipher (rk_remote k) = AES256_GCM.
Proof.
  intros RO H. unfold root_keys_generate in H. apply mbind_Val in H. destruct H as (n & s1 & Hn & H). apply mbind_Val in H. destruct H as (r & s2 & Hr & H).
  apply mbind_Val in H. destruct H as (o & s3 & Ho & H). apply mlift_Val in H. destruct H as [H _]. destruct o as [sg|]; [|discriminate]. apply mtry_Val in Ho.
  apply Some_inj in H. subst k. destruct (random_key_good P _ _ _ _ RO Hn) as [Gn Cn]. destruct (random_key_good P _ _ _ _ RO Hr) as [Gr Cr].
  split; [|split; [exact Cn|exact Cr]]. split; [exact (made_random P sg _ _ Ho)|]. split; [|split; [exact Gn|exact Gr]].
  cbn [rk_signature]. unfold ec_rand_key in Ho. destruct (p_ec_gen P s2) as [[pub pri]|]; [|discriminate].
  destruct (ec_pri_key_to_buffer pri) as [q|]; [|discriminate]. destruct (ec_pub_key_to_buffer P521 pub) as [p|]; [|discriminate]. apply (f_equal fst) in Ho. cbn [fst] in Ho. apply lift_Val' in Ho.
  unfold ec_key_create in Ho. apply Some_inj in Ho. subst sg. discriminate.
Qed.
Lemma root_keys_copy_same k k' : root_keys_copy (Some k) = Some k' -> k' = k.
Proof.
  unfold root_keys_copy. destruct (ec_key_copy (Some (rk_signature k))) as [e|] eqn:E; [|discriminate].
  destruct (cipher_key_copy (Some (rk_node k))) as [n|] eqn:N; [|discriminate]. destruct (cipher_key_copy (Some (rk_remote k))) as [r|] eqn:R; [|discriminate].
  intros H. apply Some_inj in H. subst k'. apply key_copy_same in N, R. subst n r.
  assert (E' : e = rk_signature k).
  { unfold ec_key_copy in E. destruct (rk_signature k) as [c p q]. cbn [ek_pub ek_pri ek_curve] in E. destruct (buffer_copy (Some p)) as [p'|] eqn:Ep; [|discriminate].
    apply buffer_copy_Some in Ep. destruct Ep as [Ep _]. apply Some_inj in Ep. subst p'. destruct q as [q|].
    - destruct (buffer_copy (Some q)) as [q'|] eqn:Eq; [|discriminate]. apply buffer_copy_Some in Eq. destruct Eq as [Eq _]. apply Some_inj in Eq. subst q'.
      apply Some_inj in E. subst e. reflexivity.
    - apply Some_inj in E. subst e. reflexivity. }
  rewrite E'. destruct k; reflexivity.
Qed.

(* --- localization *)
Lemma localize_Some P k i st : root_keys_localize P (Some k) (Some i) = Some st ->
  sk_local st = {| ck_cipher := ck_cipher (rk_node k); ck_data := p_sha P SHA256 (ck_data (rk_node k) ++ obytes (di_system_salt i)) |} /\
  sk_remote st = rk_remote k.
Proof.
  unfold root_keys_localize. destruct (cipher_key_copy (Some (rk_remote k))) as [r|] eqn:R; [|discriminate]. apply key_copy_same in R. subst r.
  unfold sha2. destruct (cipher_key_create _ _) as [l|] eqn:L; [|discriminate]. intros H. apply Some_inj in H. subst st. cbn [sk_local sk_remote].
  split; [|reflexivity]. unfold cipher_key_create in L. destruct (_ =? _); [|discriminate]. apply Some_inj in L. symmetry. exact L.
Qed.
Lemma localize_succeeds P k i : sha_ok P -> good_key (rk_remote k) -> exists st, root_keys_localize P (Some k) (Some i) = Some st /\ good_storage_keys st.
Proof.
  intros SO G. unfold root_keys_localize. rewrite (key_copy_ok _ G). unfold sha2, cipher_key_create. rewrite SO, key_len_32.
  change (digest_size SHA256 =? 32) with true. cbn match. eexists. split; [reflexivity|]. split; [|exact G].
  apply good_key_len. cbn [sk_local ck_data]. apply SO.
Qed.

(* --- device information *)
Lemma dev_derive_Some P salt sid i : dev_info_derive P (Some salt) (Some sid) = Some i -> sha_ok P -> derived_from P salt sid i.
Proof.
  unfold dev_info_derive, sha2. cbn [obytes]. rewrite app_nil_r. intros H SO.
  set (d := p_sha P SHA512 (sid ++ salt)) in *. assert (Ld : blen d = 64) by apply SO. change (digest_size SHA512 / 2) with 32 in H.
  destruct (buffer_copy_section d 0 32) as [m|] eqn:M; [|discriminate]. destruct (buffer_copy_section d 32 32) as [s|] eqn:S; [|discriminate].
  apply Some_inj in H. subst i. apply section_inv in M, S. destruct M as (a1 & z1 & E1 & La1 & Lm & _ & _ & _ & _). destruct S as (a2 & z2 & E2 & La2 & Ls & _ & _ & _ & _).
  destruct a1 as [|x a1]; [|rewrite blen_cons in La1; lia]. cbn [app] in E1.
  assert (z2 = []). { rewrite E2, !blen_app in Ld. destruct z2; [reflexivity|rewrite blen_cons in Ld; lia]. } subst z2. rewrite app_nil_r in E2.
  assert (a2 = m). { rewrite E1 in E2. apply app_inj_length_l' in E2; [destruct E2 as [-> _]; reflexivity|]. unfold blen in *. lia. } subst a2.
  unfold derived_from. cbn [di_dev_salt di_system_salt di_msg_proto_id di_srv_comm_id]. repeat (split; [first [reflexivity|exact Lm|apply SO|symmetry; exact E2]|]). exact Ls.
Qed.
Lemma dev_derive_succeeds P salt sid : sha_ok P -> exists i, dev_info_derive P (Some salt) (Some sid) = Some i.
Proof.
  intros SO. unfold dev_info_derive, sha2. set (d := p_sha P SHA512 _). assert (Ld : blen d = 64) by apply SO. change (digest_size SHA512 / 2) with 32.
  assert (F : d = firstn 32 d ++ skipn 32 d) by (symmetry; apply firstn_skipn).
  assert (L1 : blen (firstn 32 d) = 32) by (unfold blen in *; rewrite firstn_length; lia).
  assert (L2 : blen (skipn 32 d) = 32) by (unfold blen in *; rewrite skipn_length; lia).
  rewrite F. change (firstn 32 d ++ skipn 32 d) with ([] ++ firstn 32 d ++ skipn 32 d) at 1.
  rewrite (section_pre [] (firstn 32 d) (skipn 32 d) 0 32) by (try reflexivity; try exact L1; rewrite ?blen_app; unfold MAX_BUFFER_SIZE; lia).
  rewrite (section_end (firstn 32 d) (skipn 32 d) 32 32) by (try exact L1; try exact L2; unfold MAX_BUFFER_SIZE; lia).
  eexists. reflexivity.
Qed.
Lemma dev_copy_same i j : dev_info_copy (Some i) = Some j -> j = i.
Proof.
  unfold dev_info_copy. destruct (buffer_copy (di_system_salt i)) as [y|] eqn:Y; [|discriminate]. destruct (buffer_copy (Some (di_dev_salt i))) as [d|] eqn:D; [|discriminate].
  destruct (buffer_copy (Some (di_msg_proto_id i))) as [m|] eqn:M; [|discriminate]. destruct (buffer_copy (Some (di_srv_comm_id i))) as [s|] eqn:S; [|discriminate].
  apply buffer_copy_Some in Y, D, M, S. destruct Y as [Y _], D as [D _], M as [M _], S as [S _]. apply Some_inj in D, M, S. subst.
  intros H. apply Some_inj in H. subst j. destruct i as [d y' m s]. cbn [di_dev_salt di_system_salt di_msg_proto_id di_srv_comm_id] in *. subst y'. reflexivity.
Qed.
Lemma dev_copy_derived P salt sid i : derived_from P salt sid i -> within_limit (blen salt) -> dev_info_copy (Some i) = Some i.
Proof.
  intros (A & B & _ & C & D & E) L. unfold dev_info_copy. rewrite A, B. rewrite !copy_limit by (try exact L; unfold within_limit, library_limit; lia).
  destruct i as [d y m s]. cbn [di_dev_salt di_system_salt di_msg_proto_id di_srv_comm_id] in *. subst. reflexivity.
Qed.
Lemma dev_new_Val P sid s i s' : sha_ok P -> rand_ok P -> dev_info_create_new P (Some sid) s = (Val i, s') ->
  exists salt, blen salt = 64 /\ derived_from P salt sid i.
Proof.
  intros SO RO H. unfold dev_info_create_new in H. apply mbind_Val in H. destruct H as (salt & s1 & R & H). apply crypto_random_Val in R. destruct R as [R _].
  apply mlift_Val in H. destruct H as [H _]. exists salt. split; [exact (RO _ _ _ R)|]. apply dev_derive_Some; assumption.
Qed.
