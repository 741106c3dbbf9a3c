(* Lemmas about Model/Ctx.v *)
From Verif.Base Require Import Bytes Monad.
From Verif.Model Require Import Buffer Cipher Ecdsa Kdf Prims Engine Proto Identity Node Keys Payload Exchange Packet Ctx.
From Verif.Spec Require Import BufferSpec CodecSpec EngineSpec IdentitySpec KeysSpec MessageSpec CtxSpec.
From Verif.Proofs Require Import BytesFacts BufferFacts BufferProps ProtoFacts CodecFacts EngineFacts IdentityFacts CacheFacts IdentityProps KeysFacts MessageFacts PacketFacts.
From Coq Require Import ZifyBool ZifyNat ZifyN.
Ltac Zify.zify_post_hook ::= Z.div_mod_to_equations.
Local Open Scope N_scope.

(* --- header keys *)
Lemma header_key_eq P c ch : gen_header_key P c ch = cipher_key_create c (Some (p_sha P SHA256 (id_identifier (ch_root ch) ++ id_identifier (ch_node ch)))).
Proof. unfold gen_header_key, sha2. destruct c; reflexivity. Qed.
Lemma header_key_Some P c ch k : gen_header_key P c ch = Some k -> ck_cipher k = c /\ ck_data k = p_sha P SHA256 (id_identifier (ch_root ch) ++ id_identifier (ch_node ch)) /\ good_key k.
Proof.
  rewrite header_key_eq. unfold cipher_key_create. destruct (N.eqb_spec (blen (p_sha P SHA256 (id_identifier (ch_root ch) ++ id_identifier (ch_node ch)))) (key_len c)) as [L|]; cbn [negb]; [|discriminate].
  intros H. apply Some_inj in H. subst k. split; [reflexivity|]. split; [reflexivity|]. apply good_key_len. cbn [ck_data]. rewrite L. apply key_len_32.
Qed.
Lemma header_key_ok P ch : sha_ok P -> gen_header_key P AES256_GCM ch = Some (header_key_of P ch).
Proof. intros SO. rewrite header_key_eq. unfold cipher_key_create. rewrite SO. reflexivity. Qed.
Lemma header_key_public P c d : same_public c d -> header_key_of P c = header_key_of P d.
Proof. intros (A & B & _ & _). unfold header_key_of. rewrite A, B. reflexivity. Qed.
Lemma header_separates P c d : blen (id_identifier (ch_root c)) = blen (id_identifier (ch_root d)) ->
  no_collision_256 P (id_identifier (ch_root c) ++ id_identifier (ch_node c)) (id_identifier (ch_root d) ++ id_identifier (ch_node d)) ->
  forall e k, gen_header_key P e c = Some k -> gen_header_key P e d = Some k ->
  id_identifier (ch_root c) = id_identifier (ch_root d) /\ id_identifier (ch_node c) = id_identifier (ch_node d).
Proof.
  intros L NC e k A B. apply header_key_Some in A, B. destruct A as (_ & A & _), B as (_ & B & _). rewrite A in B. apply NC in B.
  apply app_inj_length_l' in B; [exact B|]. unfold blen in L. lia.
Qed.

(* --- generated keys have their private part *)
Lemma rand_key_private P c s k s' : ec_rand_key P c s = (Val k, s') -> ek_pri k <> None.
Proof.
  unfold ec_rand_key. destruct (p_ec_gen P s) as [[pub pri]|]; [|discriminate]. destruct (ec_pri_key_to_buffer pri) as [q|]; [|discriminate].
  destruct (ec_pub_key_to_buffer c pub) as [p|]; [|discriminate]. cbn [ec_key_create lift]. intros H. injection H as <- _. discriminate.
Qed.
Lemma node_gen_private P root i s n s' : node_identity_gen P (Some root) i s = (Val n, s') -> ek_pri (id_key n) <> None.
Proof.
  unfold node_identity_gen. destruct (id_type root); [|discriminate]. intros H.
  apply mbind_Val in H. destruct H as (k & s1 & Hk & H). apply mbind_Val in H. destruct H as (sg & s2 & _ & H).
  apply mbind_Val in H. destruct H as (ni & s3 & _ & H). apply mlift_Val in H. destruct H as [H _].
  unfold identity_create in H. destruct (_ <=? _); [discriminate|]. apply Some_inj in H. subst n. exact (rand_key_private _ _ _ _ _ Hk).
Qed.
Lemma ec_key_copy_same k k' : ec_key_copy (Some k) = Some k' -> k' = k.
Proof. apply create_same_key. Qed.
Lemma engine_key_copy P k : ec_ok P -> gen_ok P -> engine_key P k -> ec_key_copy (Some k) = Some k.
Proof.
  intros EO GO EK. destruct (engine_key_form P k EO GO EK) as (pub & E1 & E2 & E3 & E4 & E5). unfold ec_key_copy. destruct EO as (_ & EO2 & EO3).
  assert (L : within_limit (blen (ek_pub k))).
  { rewrite E1, blen_cons. destruct (EO3 _ _ E3) as [_ L]. unfold within_limit, library_limit. lia. }
  rewrite (copy_limit _ L). destruct k as [c p q]. cbn [ek_pri ek_pub ek_curve] in *. destruct q as [q|]; [|reflexivity].
  destruct (EO2 _ _ _ (E5 q eq_refl)) as (_ & _ & L1 & L2). rewrite copy_limit by (unfold within_limit, library_limit; lia). reflexivity.
Qed.
Lemma sig_copy_good s : good_sig s -> ecdsa_result_copy (Some s) = Some s.
Proof.
  intros G. unfold ecdsa_result_copy. unfold good_sig in G. rewrite copy_limit by (unfold within_limit, library_limit, blen; lia). destruct s; reflexivity.
Qed.
Lemma identity_copy_good P x : ec_ok P -> gen_ok P -> good_identity P x -> engine_key P (id_key x) -> identity_copy (Some x) = Some x.
Proof.
  intros EO GO (I & _ & S) EK. unfold identity_copy. rewrite copy_limit by (unfold within_limit, library_limit; lia). rewrite (engine_key_copy P _ EO GO EK).
  unfold identity_create, MAX_IDENTIFIER_LEN. replace (128 <=? blen (id_identifier x)) with false by lia.
  destruct x as [t i k s]. cbn [id_type id_identifier id_key id_signature] in *. destruct t.
  - subst s. reflexivity.
  - destruct S as (sg & -> & G). rewrite (sig_copy_good _ G). reflexivity.
Qed.

(* --- generation *)
Lemma create_ctx_eq P i c st x : sha_ok P -> ctx_create P (Some i) (Some c) (Some st) = Some x ->
  x = {| cx_dev := i; cx_chain := c; cx_storage := st; cx_header_key := header_key_of P c; cx_version := 4 |}.
Proof. intros SO. unfold ctx_create, default_cipher. rewrite (header_key_ok P c SO). intros H. apply Some_inj in H. symmetry. exact H. Qed.
Lemma create_ctx_ok P i c st : sha_ok P -> ctx_create P (Some i) (Some c) (Some st) = Some {| cx_dev := i; cx_chain := c; cx_storage := st; cx_header_key := header_key_of P c; cx_version := 4 |}.
Proof. intros SO. unfold ctx_create, default_cipher. rewrite (header_key_ok P c SO). reflexivity. Qed.
Definition gen_tail (P : prims) (i : dev_info) (k : root_keys) (ch : chain) : M gen_result :=
  mbind (mlift (root_keys_localize P (Some k) (Some i))) (fun st =>
  mbind (mlift (dev_info_copy (Some i))) (fun info_copy =>
  mbind (mlift (ctx_create P (Some info_copy) (Some ch) (Some st))) (fun c =>
  mbind (cipher_key_random P default_cipher) (fun recovery_key =>
  mlift (gen_result_create (Some c) (Some recovery_key) (root_keys_copy (Some k))))))).
Lemma gen_eq P i k id : ctx_gen_with_root_keys P (Some i) (Some k) (Some id) =
  mbind (mlift (ec_key_copy (Some (rk_signature k)))) (fun sk =>
  mbind (mlift (buffer_copy (Some id))) (fun idc =>
  mbind (mlift (identity_create ID_ROOT (Some idc) (Some sk) None)) (fun root =>
  mbind (node_identity_gen P (Some root) None) (fun node =>
  mbind (mlift (chain_create (Some root) (Some node))) (fun ch =>
  if negb (fst (chain_validate P ch)) then mres Null else gen_tail P i k (snd (chain_validate P ch))))))).
Proof. reflexivity. Qed.
Lemma tail_inv P i k ch s g s' : sha_ok P -> rand_ok P -> good_root_keys P k -> gen_tail P i k ch s = (Val g, s') ->
  exists st rk, root_keys_localize P (Some k) (Some i) = Some st /\ good_key rk /\ ck_cipher rk = AES256_GCM /\ g = {| gr_ctx := {| cx_dev := i; cx_chain := ch; cx_storage := st; cx_header_key := header_key_of P ch; cx_version := 4 |}; gr_recovery_key := rk; gr_root_keys := k |}.
Proof.
  intros SH RO G H. unfold gen_tail in H. apply mbind_Val in H. destruct H as (st & s1 & Hst & H). apply mlift_Val in Hst. destruct Hst as [Hst ->].
  apply mbind_Val in H. destruct H as (ic & s2 & Hic & H). apply mlift_Val in Hic. destruct Hic as [Hic ->]. apply dev_copy_same in Hic. subst ic.
  apply mbind_Val in H. destruct H as (c & s3 & Hc & H). apply mlift_Val in Hc. destruct Hc as [Hc ->]. apply (create_ctx_eq P i ch st c SH) in Hc.
  apply mbind_Val in H. destruct H as (rk & s4 & Hrk & H). apply (random_key_good P _ _ _ _ RO) in Hrk. destruct Hrk as [Gr Cr].
  apply mlift_Val in H. destruct H as [H _]. destruct (root_keys_copy (Some k)) as [k'|] eqn:K; [|discriminate]. apply root_keys_copy_same in K. rewrite K in H.
  apply Some_inj in H. exists st, rk. rewrite Hc in H. auto.
Qed.
Lemma gen_inv P i k id s g s' : ec_ok P -> gen_ok P -> sign_ok P -> sha_ok P -> rand_ok P -> good_root_keys P k ->
  ctx_gen_with_root_keys P (Some i) (Some k) (Some id) s = (Val g, s') -> generated P i k id g.
Proof.
  intros EO GO SO SH RO G H. rewrite gen_eq in H. apply mbind_Val in H. destruct H as (sk & s1 & Hsk & H). apply mlift_Val in Hsk. destruct Hsk as [Hsk ->]. apply ec_key_copy_same in Hsk. rewrite Hsk in H. clear Hsk sk.
  apply mbind_Val in H. destruct H as (idc & s2 & Hid & H). apply mlift_Val in Hid. destruct Hid as [Hid ->]. apply buffer_copy_Some in Hid. destruct Hid as [Hid Lid]. apply Some_inj in Hid. rewrite <- Hid in H, Lid. clear Hid idc.
  apply mbind_Val in H. destruct H as (root & s3 & Hr & H). apply mlift_Val in Hr. destruct Hr as [Hr ->].
  apply mbind_Val in H. destruct H as (node & s4 & Hn & H). apply mbind_Val in H. destruct H as (ch & s5 & Hch & H). apply mlift_Val in Hch. destruct Hch as [Hch ->].
  unfold identity_create, MAX_IDENTIFIER_LEN in Hr. destruct (N.leb_spec 128 (blen id)) as [|Lr]; [discriminate|]. apply Some_inj in Hr. apply Some_inj in Hch.
  assert (RK : id_key root = rk_signature k) by (rewrite <- Hr; reflexivity). assert (RI : id_identifier root = id) by (rewrite <- Hr; reflexivity).
  assert (RT : id_type root = ID_ROOT) by (rewrite <- Hr; reflexivity). assert (RS : id_signature root = None) by (rewrite <- Hr; reflexivity). clear Hr.
  destruct G as (EK & NP & GN & GR). assert (EKr : engine_key P (id_key root)) by (rewrite RK; exact EK).
  destruct (node_gen_ok P root None _ _ _ EO GO SO RO EKr Hn) as (NT & NK & NG & _ & _ & V). pose proof (node_gen_private P root None _ _ _ Hn) as NPr.
  assert (CV : fst (chain_validate P ch) = true) by (apply (generated_chain_valid P root None _ _ _ ch EO GO SO RO EKr Hn); cbn [chain_create]; rewrite Hch; reflexivity).
  rewrite CV in H. cbn [negb] in H. destruct (validate_fields P ch) as (F1 & F2 & F3). specialize (F3 CV).
  assert (R1 : ch_root ch = root) by (rewrite <- Hch; reflexivity). assert (R2 : ch_node ch = node) by (rewrite <- Hch; reflexivity). rewrite R1 in F1. rewrite R2 in F2.
  revert F1 F2 F3 H. generalize (snd (chain_validate P ch)) as cv. intros cv F1 F2 F3 H.
  destruct (tail_inv P i k cv _ g _ SH RO (conj EK (conj NP (conj GN GR))) H) as (st & rk & L & Grk & Crk & Eg).
  destruct (localize_succeeds P k i SH GR) as (st' & L' & GS). rewrite L in L'. apply Some_inj in L'. rewrite <- L' in GS. destruct (localize_Some P k i st L) as [L1 L2].
  unfold generated, good_ctx. rewrite Eg. cbn [gr_ctx gr_recovery_key gr_root_keys cx_dev cx_chain cx_storage cx_header_key cx_version]. unfold good_chain. rewrite F1, F2.
  assert (GIr : good_identity P root).
  { split; [rewrite RI; unfold within_limit in Lid; lia|]. split; [apply (engine_key_importable P _ EO GO EKr)|]. rewrite RT. exact RS. }
  split; [split; [split; [exact GIr|exact NG]|split; [split; [exact EKr|rewrite RK; exact NP]|split; [split; [exact NK|exact NPr]|split; [exact GS|reflexivity]]]]|].
  split; [reflexivity|]. split; [reflexivity|]. split; [exact RT|]. split; [exact NT|]. split; [exact RI|]. split; [exact RK|].
  split; [unfold chain_truth; rewrite F1, F2; exact V|]. split; [exact F3|]. split; [exact L2|]. split; [exact L1|]. split; [exact Grk|exact Crk].
Qed.
Lemma new_inv P i id s g s' : ec_ok P -> gen_ok P -> sign_ok P -> sha_ok P -> rand_ok P ->
  ctx_gen_new P (Some i) (Some id) s = (Val g, s') -> exists k, good_root_keys P k /\ generated P i k id g.
Proof.
  intros EO GO SO SH RO H. unfold ctx_gen_new in H. apply mbind_Val in H. destruct H as (k & s1 & Hk & H).
  destruct (root_keys_generate_good P s k s1 RO Hk) as (G & _). exists k. split; [exact G|]. exact (gen_inv P i k id s1 g s' EO GO SO SH RO G H).
Qed.
Lemma new_sig_inv P i sk id s g s' : ec_ok P -> gen_ok P -> sign_ok P -> sha_ok P -> rand_ok P -> engine_pair P sk ->
  ctx_gen_new_with_sig_key P (Some i) (Some sk) (Some id) s = (Val g, s') -> exists k, good_root_keys P k /\ rk_signature k = sk /\ generated P i k id g.
Proof.
  intros EO GO SO SH RO [EK NP] H. unfold ctx_gen_new_with_sig_key in H. apply mbind_Val in H. destruct H as (k & s1 & Hk & H).
  destruct (root_keys_generate_good P s k s1 RO Hk) as ((_ & _ & GN & GR) & _). apply mbind_Val in H. destruct H as (sk' & s2 & Hs & H). apply mlift_Val in Hs. destruct Hs as [Hs ->].
  apply ec_key_copy_same in Hs. rewrite Hs in H. eexists. split; [|split; [|exact (gen_inv P i _ id s1 g s' EO GO SO SH RO (conj EK (conj NP (conj GN GR)) : good_root_keys P {| rk_signature := sk; rk_node := rk_node k; rk_remote := rk_remote k |}) H)]].
  - split; [exact EK|split; [exact NP|split; [exact GN|exact GR]]].
  - reflexivity.
Qed.

(* --- progress: when the primitives deliver, only the arguments decide *)
Lemma mbind_step {A B} (m : M A) (f : A -> M B) s a s1 : m s = (Val a, s1) -> mbind m f s = f a s1.
Proof. intros H. unfold mbind. rewrite H. reflexivity. Qed.
Lemma mlift_step {A B} (o : option A) (f : A -> M B) s a : o = Some a -> mbind (mlift o) f s = f a s.
Proof. intros ->. reflexivity. Qed.
Lemma rand_ok_step P n s : never_fails P -> rand_ok P -> 0 < n <= 64 -> exists b, crypto_random P n s = (Val b, S s) /\ blen b = n.
Proof.
  intros (R & _) RO L. destruct (p_rand P s n) as [b|] eqn:E; [|destruct (R _ _ E)]. exists b. split; [|exact (RO _ _ _ E)].
  unfold crypto_random. destruct (N.ltb_spec INT_MAX n) as [X|X]; [unfold INT_MAX in X; lia|].
  assert (Z : size_ok n = true) by (apply size_ok_limit; unfold within_limit, library_limit; lia). rewrite Z. cbn [negb]. rewrite E. reflexivity.
Qed.
Lemma random_key_step P s : never_fails P -> rand_ok P -> exists k, cipher_key_random P AES256_GCM s = (Val k, S s) /\ good_key k /\ ck_cipher k = AES256_GCM.
Proof.
  intros NF RO. destruct (rand_ok_step P 32 s NF RO ltac:(lia)) as (b & E & L).
  assert (K : cipher_key_random P AES256_GCM s = (Val {| ck_cipher := AES256_GCM; ck_data := b |}, S s)).
  { unfold cipher_key_random. change (key_len AES256_GCM) with 32. rewrite (mbind_step _ _ _ _ _ E). unfold cipher_key_create. rewrite L. reflexivity. }
  eexists. split; [exact K|]. exact (random_key_good P _ _ _ _ RO K).
Qed.
Lemma ec_key_step P s : never_fails P -> ec_ok P -> gen_ok P -> exists k, ec_rand_key P P521 s = (Val k, S s).
Proof.
  intros (_ & G & _) EO GO. destruct (p_ec_gen P s) as [[pub pri]|] eqn:E; [|destruct (G _ E)]. destruct (GO _ _ _ E) as [_ L]. destruct EO as (E1 & E2 & _).
  destruct (E2 _ _ _ (E1 _ _ _ E)) as (_ & _ & L1 & L2). unfold ec_rand_key. rewrite E.
  assert (A : ec_pri_key_to_buffer pri = Some pri) by (apply create_limit; unfold within_limit, library_limit; lia).
  assert (B : ec_pub_key_to_buffer P521 pub = Some (x00 :: pub)) by (apply (create_limit (x00 :: pub)); rewrite blen_cons; unfold within_limit, library_limit; lia).
  rewrite A, B. eexists. reflexivity.
Qed.
Lemma sign_step P k d g s : never_fails P -> ec_ok P -> gen_ok P -> engine_pair P k -> exists sg, ec_sign P (Some k) (Some d) g s = (Val sg, S s).
Proof.
  intros (_ & _ & N) EO GO H. destruct (pair_form P k EO GO H) as (pub & pri & _ & B & _ & D & _). unfold ec_sign. rewrite B, D.
  destruct (p_sign P g pri d s) as [x|] eqn:E; [|destruct (N g pub pri d s (ex_intro _ pri D) E)]. eexists. reflexivity.
Qed.
Lemma node_gen_step P root s : never_fails P -> rand_ok P -> ec_ok P -> gen_ok P -> engine_pair P (id_key root) -> id_type root = ID_ROOT ->
  exists n s', node_identity_gen P (Some root) None s = (Val n, s').
Proof.
  intros NF RO EO GO PK T. unfold node_identity_gen. rewrite T. destruct (ec_key_step P s NF EO GO) as (k & Hk). rewrite (mbind_step _ _ _ _ _ Hk).
  destruct (sign_step P (id_key root) (ek_pub k) SHA512 (S s) NF EO GO PK) as (sg & Hs).
  assert (Hs' : identity_sign P (Some root) (Some (ek_pub k)) (S s) = (Val sg, S (S s))).
  { unfold identity_sign. destruct PK as [_ PK]. destruct (ek_pri (id_key root)); [exact Hs|congruence]. }
  rewrite (mbind_step _ _ _ _ _ Hs'). destruct (rand_ok_step P 32 (S (S s)) NF RO ltac:(lia)) as (b & Hb & L). change IDENTIFIER_LEN with 32.
  rewrite (mbind_step _ _ _ _ _ Hb). unfold identity_create, MAX_IDENTIFIER_LEN. rewrite L. change (128 <=? 32) with false. eexists. eexists. reflexivity.
Qed.
Lemma root_copy_good P k : ec_ok P -> gen_ok P -> good_root_keys P k -> root_keys_copy (Some k) = Some k.
Proof.
  intros EO GO (EK & _ & GN & GR). unfold root_keys_copy. rewrite (engine_key_copy P _ EO GO EK), (key_copy_ok _ GN), (key_copy_ok _ GR). destruct k; reflexivity.
Qed.
Lemma dev_copy_good P i : good_dev_info P i -> dev_info_copy (Some i) = Some i.
Proof. intros (salt & sid & D & L). exact (dev_copy_derived P salt sid i D L). Qed.
Lemma gen_step P i k id s : never_fails P -> ec_ok P -> gen_ok P -> sign_ok P -> sha_ok P -> rand_ok P -> good_root_keys P k -> good_dev_info P i -> 0 < blen id < 128 ->
  exists g s', ctx_gen_with_root_keys P (Some i) (Some k) (Some id) s = (Val g, s').
Proof.
  intros NF EO GO SO SH RO G D L. rewrite gen_eq. pose proof G as (EK & NP & GN & GR).
  rewrite (mlift_step _ _ _ _ (engine_key_copy P _ EO GO EK)). rewrite (mlift_step _ _ _ id) by (apply copy_limit; unfold within_limit, library_limit; lia).
  rewrite (mlift_step _ _ _ {| id_type := ID_ROOT; id_identifier := id; id_key := rk_signature k; id_signature := None |})
    by (unfold identity_create, MAX_IDENTIFIER_LEN; replace (128 <=? blen id) with false by lia; reflexivity).
  set (root := {| id_type := ID_ROOT; id_identifier := id; id_key := rk_signature k; id_signature := None |}).
  destruct (node_gen_step P root s NF RO EO GO (conj EK NP) eq_refl) as (n & s1 & Hn). rewrite (mbind_step _ _ _ _ _ Hn).
  set (ch := {| ch_root := root; ch_node := n; ch_status := S_UNKNOWN; ch_cache := None |}). rewrite (mlift_step _ _ _ ch) by reflexivity.
  rewrite (generated_chain_valid P root None s n s1 ch EO GO SO RO EK Hn eq_refl). cbn [negb]. unfold gen_tail.
  destruct (localize_succeeds P k i SH GR) as (st & Hst & _). rewrite (mlift_step _ _ _ _ Hst). rewrite (mlift_step _ _ _ _ (dev_copy_good P i D)).
  rewrite (mlift_step _ _ _ _ (create_ctx_ok P i _ st SH)). destruct (random_key_step P s1 NF RO) as (rk & Hrk & _). change default_cipher with AES256_GCM. rewrite (mbind_step _ _ _ _ _ Hrk).
  rewrite (root_copy_good P k EO GO G). eexists. eexists. reflexivity.
Qed.

(* --- a context in bytes *)
Lemma pb_ctx_roundtrip m : (forall s, px_storage m = Some s -> pb_storage_ok s /\ blen (pb_storage_keys_pack s) < two32) ->
  (forall c, px_chain m = Some c -> pb_chain_ok c /\ blen (pb_chain_pack c) < two32) -> pb_ctx_unpack (pb_ctx_pack m) = Some m.
Proof.
  intros A B. unfold pb_ctx_unpack, pb_ctx_pack. rewrite <- (app_nil_r (f_len_opt 2 _)).
  assert (A' : small (option_map pb_storage_keys_pack (px_storage m))) by (intros x H; destruct (px_storage m) as [s|]; [|discriminate]; apply Some_inj in H; subst x; apply (A s eq_refl)).
  assert (B' : small (option_map pb_chain_pack (px_chain m))) by (intros x H; destruct (px_chain m) as [s|]; [|discriminate]; apply Some_inj in H; subst x; apply (B s eq_refl)).
  rewrite !scan_len_opt by (lia || assumption). rewrite scan_nil. destruct m as [s c]. cbn [px_storage px_chain] in *.
  destruct s as [s|], c as [c|]; fields; rewrite ?pb_storage_roundtrip by apply (A _ eq_refl); rewrite ?pb_chain_roundtrip by apply (B _ eq_refl); reflexivity.
Qed.
Lemma identity_build_ok P x : good_identity P x -> engine_pair P (id_key x) -> ec_ok P -> gen_ok P ->
  exists m, identity_build_proto x true = Some m /\ identity_create_from_proto P (Some m) = Val x /\ blen (pb_identity_pack m) <= 2000.
Proof.
  intros G PK EO GO. destruct (pair_form P _ EO GO PK) as (pub & pri & _ & B & _ & _ & _ & _ & L).
  assert (IP : importable_private P (id_key x)) by (apply engine_key_importable_private; [exact EO|exact GO|apply PK|apply PK]).
  assert (E : exists m, identity_build_proto x true = Some m /\ blen (pb_identity_pack m) <= 2000).
  { destruct G as (I & _ & S). unfold identity_build_proto. rewrite B. destruct (id_type x).
    - eexists. split; [reflexivity|]. unfold pb_identity_pack. rewrite !blen_app. cbn [pi_identifier pi_sig_key pi_signature pi_type pi_is_private option_map].
      pose proof (f_len_opt_size 1 (Some (id_identifier x))). pose proof (f_len_opt_size 2 (Some pri)). pose proof (f_len_opt_size 3 None).
      pose proof (f_var_opt_size 4 (Some 0)). pose proof (f_var_opt_size 5 (Some (bool_var true))). cbn [oblen] in *. lia.
    - destruct S as (sg & -> & Gs). rewrite (sig_serialize_ok sg Gs). eexists. split; [reflexivity|]. unfold pb_identity_pack. rewrite !blen_app. cbn [pi_identifier pi_sig_key pi_signature pi_type pi_is_private option_map].
      pose proof (f_len_opt_size 1 (Some (id_identifier x))). pose proof (f_len_opt_size 2 (Some pri)). pose proof (f_len_opt_size 3 (Some (sig_wire sg))).
      pose proof (f_var_opt_size 4 (Some 1)). pose proof (f_var_opt_size 5 (Some (bool_var true))). cbn [oblen] in *.
      assert (blen (sig_wire sg) = 143) by (unfold blen; rewrite (sig_wire_length _ Gs); reflexivity). lia. }
  destruct E as (m & E & Lm). exists m. split; [exact E|]. split; [exact (identity_from_build_private P x m G IP E)|exact Lm].
Qed.
Lemma chain_build_ok P c : good_chain P c -> engine_pair P (id_key (ch_root c)) -> engine_pair P (id_key (ch_node c)) -> ec_ok P -> gen_ok P ->
  exists m, chain_build_proto c true = Some m /\ blen (pb_chain_pack m) <= 5000 /\
    chain_create_from_proto P (Some m) = Val {| ch_root := ch_root c; ch_node := ch_node c; ch_status := S_UNKNOWN; ch_cache := None |}.
Proof.
  intros [Gr Gn] Kr Kn EO GO. destruct (identity_build_ok P _ Gr Kr EO GO) as (r & Hr & Pr & Lr). destruct (identity_build_ok P _ Gn Kn EO GO) as (n & Hn & Pn & Ln).
  unfold chain_build_proto. rewrite Hr, Hn. eexists. split; [reflexivity|]. split.
  - unfold pb_chain_pack. rewrite blen_app. cbn [pc_root pc_node option_map]. pose proof (f_len_opt_size 1 (Some (pb_identity_pack r))). pose proof (f_len_opt_size 2 (Some (pb_identity_pack n))). cbn [oblen] in *. lia.
  - unfold chain_create_from_proto. cbn [pc_root pc_node]. rewrite Pr, Pn. reflexivity.
Qed.
Definition ctx_message (c : ctx) (m : pb_chain) : pb_ctx := {| px_storage := Some (storage_msg (cx_storage c)); px_chain := Some m |}.
Lemma ctx_roundtrip P c i : ec_ok P -> gen_ok P -> sha_ok P -> good_ctx P c ->
  exists b, ctx_serialize (Some c) = Some b /\ b <> [] /\ blen b <= 6000 /\ ctx_create_from_buffer P (Some i) (Some b) = Val (restored i c).
Proof.
  intros EO GO SH (GC & Kr & Kn & GS & HK). destruct (chain_build_ok P _ GC Kr Kn EO GO) as (m & Hm & Lm & Pm).
  assert (SZ : blen (pb_ctx_pack (ctx_message c m)) <= 6000).
  { unfold pb_ctx_pack, ctx_message. rewrite blen_app. cbn [px_storage px_chain option_map]. pose proof (storage_msg_size _ GS).
    pose proof (f_len_opt_size 1 (Some (pb_storage_keys_pack (storage_msg (cx_storage c))))). pose proof (f_len_opt_size 2 (Some (pb_chain_pack m))). cbn [oblen] in *. lia. }
  assert (NE : pb_ctx_pack (ctx_message c m) <> []).
  { unfold pb_ctx_pack, ctx_message. cbn [px_storage px_chain option_map f_len_opt]. intros H. apply app_eq_nil in H. destruct H as [H _]. apply (f_equal blen) in H.
    pose proof (blen_f_len 1 (pb_storage_keys_pack (storage_msg (cx_storage c)))). pose proof (nonempty_blen _ (storage_msg_nonempty (cx_storage c))). rewrite blen_nil in H. lia. }
  assert (W : ctx_serialize (Some c) = Some (pb_ctx_pack (ctx_message c m))).
  { unfold ctx_serialize, ctx_to_proto. rewrite Hm, (storage_to_proto _ GS). apply pack_buffer_ok. pose proof (nonempty_blen _ NE). unfold within_limit, library_limit, ctx_message in *. lia. }
  exists (pb_ctx_pack (ctx_message c m)). split; [exact W|]. split; [exact NE|]. split; [exact SZ|].
  unfold ctx_create_from_buffer. rewrite pb_ctx_roundtrip.
  2:{ intros s E. apply Some_inj in E. subst s. split; [apply storage_msg_ok, GS|]. pose proof (storage_msg_size _ GS). unfold two32. lia. }
  2:{ intros x E. apply Some_inj in E. subst x. split; [apply (chain_pack_ok (cx_chain c) true); [exact Hm|unfold library_limit; lia]|unfold two32; lia]. }
  unfold ctx_create_from_proto, ctx_message. cbn [px_storage px_chain]. rewrite Pm. cbn [rbind]. rewrite (storage_from_msg _ GS). cbn [rbind].
  rewrite (create_ctx_ok P i _ _ SH). unfold restored. rewrite HK. reflexivity.
Qed.
Lemma wrap_scrypt : is_scrypt KDF_SCRYPT_2_17.
Proof. left. reflexivity. Qed.
Lemma ctx_export_import P c i p s e s' : ec_ok P -> gen_ok P -> sha_ok P -> ctr_ok P -> aead_ok P -> good_ctx P c ->
  ctx_export P (Some c) (Some p) s = (Val e, s') -> ctx_import P (Some i) (Some e) (Some p) = Val (restored i c).
Proof.
  intros EO GO SH CO AO G H. destruct (ctx_roundtrip P c i EO GO SH G) as (b & W & NE & _ & R). unfold ctx_export in H. rewrite W in H.
  apply mbind_Val in H. destruct H as (b' & s1 & Hb & H). apply mlift_Val in Hb. destruct Hb as [Hb ->]. apply Some_inj in Hb. rewrite <- Hb in H.
  unfold ctx_import. rewrite (kdf_unwrap P _ _ _ _ _ _ _ wrap_scrypt CO AO NE H). cbn [rbind]. exact R.
Qed.
Lemma export_storage_eq P c p : ctx_export_storage_keys P (Some c) (Some p) =
  mbind (mres (storage_keys_serialize (Some (cx_storage c)))) (fun ser => kdf_cipher P KDF_SCRYPT_2_17 default_cipher (Some ser) (Some p)).
Proof. reflexivity. Qed.
Lemma import_storage_eq P e p : ctx_import_storage_keys P (Some e) (Some p) = rbind (kdf_decipher P (Some e) (Some p)) (fun d => storage_keys_create_from_buffer (Some d)).
Proof. reflexivity. Qed.
Lemma storage_export_import P c p s e s' : ctr_ok P -> aead_ok P -> good_storage_keys (cx_storage c) ->
  ctx_export_storage_keys P (Some c) (Some p) s = (Val e, s') -> ctx_import_storage_keys P (Some e) (Some p) = Val (cx_storage c).
Proof.
  intros CO AO G H. rewrite export_storage_eq, (storage_serialize_ok _ G) in H. rewrite import_storage_eq.
  pose proof (storage_parse_ok _ G) as R. pose proof (storage_msg_nonempty (cx_storage c)) as NE. revert R NE H. generalize (pb_storage_keys_pack (storage_msg (cx_storage c))) as w. intros w R NE H.
  apply mbind_Val in H. destruct H as (b' & s1 & Hb & H). apply mres_Val in Hb. destruct Hb as [Hb ->]. apply Val_inj in Hb. subst b'.
  rewrite (kdf_unwrap P _ _ _ _ _ _ _ wrap_scrypt CO AO NE H). exact R.
Qed.

(* --- recovery *)
Lemma recovery_import P k rk s d s' (g : gen_result) : ec_ok P -> gen_ok P -> ctr_ok P -> aead_ok P -> good_root_keys P k -> gr_root_keys g = k -> gr_recovery_key g = rk -> ck_cipher rk = AES256_GCM ->
  make_recovery P (Some g) s = (Val d, s') -> ctx_gen_import_recovery P (Some d) (Some rk) = Val k.
Proof.
  intros EO GO CO AO G EK ER C H. destruct (root_keys_roundtrip P k EO GO G) as (b & W & NE & _ & R). unfold make_recovery in H. rewrite EK, ER in H.
  apply mbind_Val in H. destruct H as (cr & s1 & Hc & H). apply mlift_Val in H. destruct H as [H ->].
  unfold root_keys_export in Hc. apply mbind_Val in Hc. destruct Hc as (b' & s2 & Hb & Hc). apply mres_Val in Hb. destruct Hb as [Hb ->]. rewrite W in Hb. apply Val_inj in Hb. rewrite <- Hb in Hc.
  destruct (decrypt_serialized P b None rk None true _ _ _ _ CO AO NE (fun _ => C) Hc H) as (r' & P1 & P2).
  unfold ctx_gen_import_recovery. rewrite P1. cbn [rbind]. rewrite P2. cbn [rbind]. exact R.
Qed.
Lemma with_recovery_inv P i d rk id s g s' k : ec_ok P -> gen_ok P -> sign_ok P -> sha_ok P -> rand_ok P -> good_root_keys P k ->
  ctx_gen_import_recovery P (Some d) (Some rk) = Val k -> ctx_gen_with_recovery P (Some i) (Some d) (Some rk) (Some id) s = (Val g, s') ->
  gr_recovery_key g = rk /\ exists g1, ctx_gen_with_root_keys P (Some i) (Some k) (Some id) s = (Val g1, s') /\ gr_ctx g = gr_ctx g1 /\ gr_root_keys g = gr_root_keys g1.
Proof.
  intros EO GO SO SH RO G R H. unfold ctx_gen_with_recovery in H. rewrite R in H. apply mbind_Val in H. destruct H as (k' & s1 & Hk & H). apply mres_Val in Hk. destruct Hk as [Hk ->]. apply Val_inj in Hk. rewrite <- Hk in H.
  apply mbind_Val in H. destruct H as (o & s2 & Ho & H). apply mtry_Val in Ho. destruct o as [r|]; [|discriminate].
  apply mbind_Val in H. destruct H as (kc & s3 & Hc & H). apply mlift_Val in Hc. destruct Hc as [Hc ->]. apply key_copy_same in Hc. rewrite Hc in H.
  unfold mret, mres in H. injection H as H <-. rewrite <- H. cbn [gr_recovery_key gr_ctx gr_root_keys]. split; [reflexivity|]. exists r. auto.
Qed.
Lemma recovered P i1 k id1 g rk d s s' i2 id2 s2 g2 s2' : ec_ok P -> gen_ok P -> sign_ok P -> sha_ok P -> rand_ok P -> ctr_ok P -> aead_ok P -> good_root_keys P k ->
  generated P i1 k id1 g -> rk = gr_recovery_key g -> make_recovery P (Some g) s = (Val d, s') ->
  ctx_gen_with_recovery P (Some i2) (Some d) (Some rk) (Some id2) s2 = (Val g2, s2') ->
  generated P i2 k id2 g2 /\ gr_recovery_key g2 = gr_recovery_key g.
Proof.
  intros EO GO SO SH RO CO AO G GG -> MR H. pose proof GG as GG'. unfold generated in GG'. destruct GG' as (_ & _ & EK & _ & _ & _ & _ & _ & _ & _ & _ & GK & GC).
  pose proof (recovery_import P k _ s d s' g EO GO CO AO G EK eq_refl GC MR) as IR.
  destruct (with_recovery_inv P i2 d _ id2 s2 g2 s2' k EO GO SO SH RO G IR H) as (E1 & g1 & H1 & E2 & E3). split; [|exact E1].
  pose proof (gen_inv P i2 k id2 s2 g1 s2' EO GO SO SH RO G H1) as Q. unfold generated in Q. rewrite <- E2, <- E3 in Q. unfold generated. rewrite E1. intuition.
Qed.
Lemma recovery_succeeds P i1 k id1 g d s s' i2 id2 s2 : never_fails P -> ec_ok P -> gen_ok P -> sign_ok P -> sha_ok P -> rand_ok P -> ctr_ok P -> aead_ok P -> good_root_keys P k ->
  generated P i1 k id1 g -> make_recovery P (Some g) s = (Val d, s') -> good_dev_info P i2 -> 0 < blen id2 < 128 ->
  exists g2 s2', ctx_gen_with_recovery P (Some i2) (Some d) (Some (gr_recovery_key g)) (Some id2) s2 = (Val g2, s2').
Proof.
  intros NF EO GO SO SH RO CO AO G GG MR D L. unfold generated in GG. destruct GG as (_ & _ & EK & _ & _ & _ & _ & _ & _ & _ & _ & GK & GC).
  pose proof (recovery_import P k _ s d s' g EO GO CO AO G EK eq_refl GC MR) as IR. destruct (gen_step P i2 k id2 s2 NF EO GO SO SH RO G D L) as (g1 & s1 & H1).
  unfold ctx_gen_with_recovery. rewrite IR. rewrite (mbind_step (mres (Val k)) _ s2 k s2 eq_refl).
  rewrite (mbind_step (mtry (ctx_gen_with_root_keys P (Some i2) (Some k) (Some id2))) _ s2 (Some g1) s1) by (unfold mtry; rewrite H1; reflexivity).
  rewrite (mlift_step _ _ _ _ (key_copy_ok _ GK)). eexists. eexists. reflexivity.
Qed.
Lemma make_recovery_succeeds P k g s : never_fails P -> ec_ok P -> gen_ok P -> rand_ok P -> aead_ok P -> ctr_ok P -> good_root_keys P k -> gr_root_keys g = k -> good_key (gr_recovery_key g) -> ck_cipher (gr_recovery_key g) = AES256_GCM ->
  exists d s', make_recovery P (Some g) s = (Val d, s').
Proof.
  intros NF EO GO RO AO CO G EK GK GC. destruct (root_keys_roundtrip P k EO GO G) as (b & W & NE & Lb & _).
  assert (E : exists r s1, aes256_encrypt P (Some b) None (Some (gr_recovery_key g)) None s = (Val r, s1)).
  { apply encrypt_succeeds; [exact AO|exact GK|unfold library_limit; lia|congruence|apply N.le_0_l|]. destruct NF as (N & _). destruct (p_rand P s (iv_len (ck_cipher (gr_recovery_key g)))) as [v|] eqn:V; [|destruct (N _ _ V)]. exists v. split; [reflexivity|exact (RO _ _ _ V)]. }
  destruct E as (r & s1 & E). destruct (encrypt_good P b None _ None s r s1 CO AO NE E) as [Gr Lr].
  assert (WL : within_limit (blen (result_wire r))).
  { unfold result_wire. rewrite blen_cons, !blen_app, Lr. assert (blen (cr_iv r) <= 16 /\ blen (bytes_of (cr_tag r)) <= 16).
    { destruct Gr as [Gr _]. destruct (cr_cipher r); [destruct Gr as (I & t & T & Lt); rewrite T|destruct Gr as (I & T); rewrite T]; cbn [bytes_of]; unfold blen; cbn [length]; lia. }
    unfold within_limit, library_limit. lia. }
  exists (result_wire r), s1. unfold make_recovery, root_keys_export. rewrite EK.
  rewrite (mbind_step (mbind (mres (root_keys_serialize (Some k))) (fun ser => aes256_encrypt P (Some ser) None (Some (gr_recovery_key g)) None)) _ s r s1).
  - rewrite (result_serialize_ok r Gr WL). reflexivity.
  - rewrite W. rewrite (mbind_step (mres (Val b)) _ s b s eq_refl). exact E.
Qed.
(* the recovery key behind a passphrase *)
Lemma export_recovery_eq P g p : export_recovery_key_passphrase P (Some g) (Some p) =
  mbind (mlift (cipher_key_serialize (Some (gr_recovery_key g)))) (fun b => kdf_cipher P KDF_SCRYPT_2_17 default_cipher (Some b) (Some p)).
Proof. reflexivity. Qed.
Lemma import_recovery_eq P e p : import_recovery_key_passphrase P (Some e) (Some p) = rbind (kdf_decipher P (Some e) (Some p)) (fun d => cipher_key_from_buffer (Some d)).
Proof. reflexivity. Qed.
Lemma passphrase_key P g p s e s' : ctr_ok P -> aead_ok P -> good_key (gr_recovery_key g) ->
  export_recovery_key_passphrase P (Some g) (Some p) s = (Val e, s') -> import_recovery_key_passphrase P (Some e) (Some p) = Val (gr_recovery_key g).
Proof.
  intros CO AO G H. rewrite export_recovery_eq, (key_serialize_ok _ G) in H. rewrite import_recovery_eq.
  pose proof (key_wire_parse _ G) as R. assert (NE : key_wire (gr_recovery_key g) <> []) by discriminate. revert R NE H. generalize (key_wire (gr_recovery_key g)) as w. intros w R NE H.
  apply mbind_Val in H. destruct H as (b' & s1 & Hb & H). apply mlift_Val in Hb. destruct Hb as [Hb ->]. apply Some_inj in Hb. subst b'.
  rewrite (kdf_unwrap P _ _ _ _ _ _ _ wrap_scrypt CO AO NE H). exact R.
Qed.
Lemma passphrase_eq P i e p d id k : import_recovery_key_passphrase P (Some e) (Some p) = Val k ->
  forall s, ctx_gen_with_passphrase P (Some i) (Some e) (Some p) (Some d) (Some id) s = ctx_gen_with_recovery P (Some i) (Some d) (Some k) (Some id) s.
Proof.
  intros H s. unfold import_recovery_key_passphrase in H. apply rbind_Val in H. destruct H as (b & Hb & H). unfold ctx_gen_with_passphrase. rewrite Hb.
  rewrite (mbind_step (mres (Val b)) _ s b s eq_refl). rewrite H. rewrite (mbind_step (mres (Val k)) _ s k s eq_refl). reflexivity.
Qed.

(* --- messages between contexts *)
Lemma chain_copy_public c c' : chain_copy (Some c) = Some c' -> same_public c' c.
Proof.
  intros H. apply chain_copy_same in H. destruct H as (A & B & _). apply identity_copy_same in A, B. destruct A as (_ & A1 & A2 & _), B as (_ & B1 & B2 & _).
  unfold same_public. rewrite A1, A2, B1, B2. auto.
Qed.
Lemma same_public_trans a b c : same_public a b -> same_public b c -> same_public a c.
Proof. unfold same_public. intros (A & B & C & D) (E & F & G & H). repeat split; congruence. Qed.
Lemma ctx_encode_inv P c pl ns s e s' : rand_ok P -> ctx_encode_packet P (Some c) (Some pl) (Some ns) s = (Val e, s') ->
  exists ek s1, good_key (en_key e) /\ ck_cipher (en_key e) = AES256_GCM /\ engine_pair P ek /\
    packet_create_from_components P (Some (cx_header_key c)) (Some (en_key e)) (Some ek) (Some pl) (Some ns) (Some (cx_chain c)) (cx_version c) s1 = (Val (en_packet e), s').
Proof.
  intros RO H. unfold ctx_encode_packet in H. apply mbind_Val in H. destruct H as (pk & s1 & Hk & H). apply mbind_Val in H. destruct H as (ek & s2 & He & H).
  apply mbind_Val in H. destruct H as (p & s3 & Hp & H). apply mlift_Val in H. destruct H as [H ->]. cbn [encoder_result_create] in H. apply Some_inj in H.
  destruct (random_key_good P _ _ _ _ RO Hk) as [G C]. exists ek, s2. rewrite <- H. cbn [en_key en_packet]. split; [exact G|]. split; [exact C|]. split; [|exact Hp].
  split; [exact (made_random P ek _ _ He)|exact (rand_key_private _ _ _ _ _ He)].
Qed.
Lemma read_eq P b i s : ctx_read_packet P (Some b) i s =
  rbind (packet_create_from_buffer (Some b)) (fun p => rbind (parse_result_from_packet P (gen_header_key P) (Some p) i s) (fun r =>
    rbind (lift (chain_copy s)) (fun c => lift (ctx_packet_create (Some p) (Some c) (Some r))))).
Proof. reflexivity. Qed.
Lemma ctx_messages P c pl ns s e s' b : ec_ok P -> gen_ok P -> ecdh_ok P -> sign_ok P -> ctr_ok P -> aead_ok P -> sha_ok P -> rand_ok P ->
  good_ctx P c -> good_payload pl -> key_ids_ok ns -> ctx_encode_packet P (Some c) (Some pl) (Some ns) s = (Val e, s') -> packet_serialize (Some (en_packet e)) = Some b ->
  forall n kp rk c' s1 s2, distinct_recipients ns -> In (Some n) ns -> nd_keypair n = Some kp -> engine_pair P rk -> ek_pub rk = ek_pub (kp_key kp) ->
  same_public (cx_chain c') (nd_chain n) -> di_msg_proto_id (cx_dev c') = nd_dev_id n -> same_public s1 (cx_chain c) -> chain_copy (Some s1) = Some s2 ->
  exists q, ctx_parse_packet P (Some c') (Some b) (Some s1) = Val q /\ pa_status (cp_parse q) = SIG_VALID /\ pa_err (cp_parse q) = E_SUCCESS /\
    ctx_decode_packet P (Some c') (Some q) (Some rk) = Val (decode_success pl (en_key e)).
Proof.
  intros EO GO DO SO CO AO SH RO (GC & Kr & Kn & GS & HK) GL KI H W n kp rk c' s1 s2 DR I K PR KP SC DI S1 CP.
  destruct (ctx_encode_inv P c pl ns s e s' RO H) as (ek & st & Gk & Ck & PE & HC).
  assert (HG : gen_header_key P AES256_GCM s1 = Some (cx_header_key c)) by (rewrite (header_key_ok P s1 SH), HK, (header_key_public P s1 _ S1); reflexivity).
  assert (CC : ck_cipher (cx_header_key c) = AES256_GCM) by (rewrite HK; reflexivity).
  destruct (encoded_decodes_all P (gen_header_key P) (cx_header_key c) (en_key e) ek pl ns (cx_chain c) (cx_version c) st s' (en_packet e) b EO GO DO SO CO AO CC Gk Ck PE (proj1 Kn) GL KI HC W
    n kp rk s1 s2 (cx_chain c') DR I K PR KP HG S1 (same_public_trans _ _ _ (chain_copy_public _ _ CP) S1) SC) as (q & r & P1 & P2 & P3 & P4 & P5).
  exists {| cp_packet := q; cp_sender := s2; cp_parse := r |}. split.
  - unfold ctx_parse_packet. rewrite read_eq, P1. cbn [rbind]. assert (E : id_identifier (ch_node (cx_chain c')) = node_id n) by apply SC. rewrite E, P2. cbn [rbind]. rewrite CP. reflexivity.
  - cbn [cp_parse]. split; [exact P3|]. split; [exact P4|]. unfold ctx_decode_packet. cbn [cp_packet cp_parse cp_sender]. rewrite DI. exact P5.
Qed.
Lemma ctx_stranger P c pl ns s e s' b : ec_ok P -> gen_ok P -> sign_ok P -> ctr_ok P -> aead_ok P -> sha_ok P -> rand_ok P ->
  good_ctx P c -> good_payload pl -> key_ids_ok ns -> ctx_encode_packet P (Some c) (Some pl) (Some ns) s = (Val e, s') -> packet_serialize (Some (en_packet e)) = Some b ->
  forall c' s1 s2, (forall n, In (Some n) ns -> node_id n <> id_identifier (ch_node (cx_chain c'))) -> same_public s1 (cx_chain c) -> chain_copy (Some s1) = Some s2 ->
  exists q, ctx_parse_packet P (Some c') (Some b) (Some s1) = Val q /\ pa_err (cp_parse q) = ERROR_NODE_NOT_FOUND /\
    pa_exchange (cp_parse q) = None /\ pa_set (cp_parse q) = None /\ pa_payload (cp_parse q) = None.
Proof.
  intros EO GO SO CO AO SH RO (GC & Kr & Kn & GS & HK) GL KI H W c' s1 s2 NI S1 CP.
  destruct (ctx_encode_inv P c pl ns s e s' RO H) as (ek & st & Gk & Ck & PE & HC).
  assert (HG : gen_header_key P AES256_GCM s1 = Some (cx_header_key c)) by (rewrite (header_key_ok P s1 SH), HK, (header_key_public P s1 _ S1); reflexivity).
  assert (CC : ck_cipher (cx_header_key c) = AES256_GCM) by (rewrite HK; reflexivity).
  destruct (encoded_stranger P (gen_header_key P) (cx_header_key c) (en_key e) ek pl ns (cx_chain c) (cx_version c) st s' (en_packet e) b EO GO SO CO AO CC Gk Ck PE (proj1 Kn) GL KI HC W
    _ s1 NI HG S1) as (q & r & P1 & P2 & P3 & P4 & P5 & P6).
  exists {| cp_packet := q; cp_sender := s2; cp_parse := r |}. split; [|cbn [cp_parse]; auto].
  unfold ctx_parse_packet. rewrite read_eq, P1. cbn [rbind]. rewrite P2. cbn [rbind]. rewrite CP. reflexivity.
Qed.
Lemma read_inv P b i s q : ctx_read_packet P (Some b) i (Some s) = Val q ->
  packet_create_from_buffer (Some b) = Val (cp_packet q) /\ parse_result_from_packet P (gen_header_key P) (Some (cp_packet q)) i (Some s) = Val (cp_parse q) /\ chain_copy (Some s) = Some (cp_sender q).
Proof.
  rewrite read_eq. intros H. apply rbind_Val in H. destruct H as (p & Hp & H). apply rbind_Val in H. destruct H as (r & Hr & H). apply rbind_Val in H. destruct H as (c & Hc & H).
  apply lift_Val' in Hc. apply lift_Val' in H. cbn [ctx_packet_create] in H. apply Some_inj in H. rewrite <- H. cbn [cp_packet cp_parse cp_sender]. auto.
Qed.
(* a header that was accepted was opened with its tag under the digest of the sender's identifiers *)
Lemma ctx_header_opened P b i s q : ctx_read_packet P (Some b) (Some i) (Some s) = Val q -> pa_err (cp_parse q) = E_SUCCESS ->
  sender_verifies P (cp_packet q) s /\
  exists hc plain set, opened P hc (p_sha P SHA256 (id_identifier (ch_root s) ++ id_identifier (ch_node s))) [] plain /\
    exchange_set_create_from_buffer P (Some plain) = Val set /\ pa_set (cp_parse q) = Some set.
Proof.
  intros H E. apply read_inv in H. destruct H as (_ & H & _).
  destruct (success_authenticated P (gen_header_key P) (cp_packet q) i s (cp_parse q)) as (V & _ & hc & hk & plain & set & l & x & HK & O & X & S & _); [|exact H|exact E|].
  - intros c k K. apply header_key_Some in K. apply K.
  - split; [exact V|]. exists hc, plain, set. apply header_key_Some in HK. destruct HK as (_ & D & _). rewrite D in O. auto.
Qed.

(* --- storage *)
Lemma local_roundtrip P c pt s r s' : ctr_ok P -> aead_ok P -> pt <> [] -> ck_cipher (sk_local (cx_storage c)) = AES256_GCM ->
  ctx_cipher_local P (Some c) (Some pt) s = (Val r, s') -> ctx_decipher_local P (Some c) (Some r) = Val pt.
Proof. intros CO AO NE C H. exact (decrypt_encrypt P pt None _ None s r s' true CO AO NE (fun _ => C) H). Qed.
Lemma remote_roundtrip P c pt s r s' : ctr_ok P -> aead_ok P -> pt <> [] -> ck_cipher (sk_remote (cx_storage c)) = AES256_GCM ->
  ctx_cipher_remote P (Some c) (Some pt) s = (Val r, s') -> ctx_decipher_remote P (Some c) (Some r) = Val pt.
Proof. intros CO AO NE C H. exact (decrypt_encrypt P pt None _ None s r s' true CO AO NE (fun _ => C) H). Qed.
Lemma local_opened P c r v : good_storage_keys (cx_storage c) -> good_result r -> ctx_decipher_local P (Some c) (Some r) = Val v -> opened P r (ck_data (sk_local (cx_storage c))) [] v.
Proof. intros [G _] R H. exact (proj2 (decrypt_opened P r None _ v G R ltac:(discriminate) H)). Qed.
Lemma remote_opened P c r v : good_storage_keys (cx_storage c) -> good_result r -> ctx_decipher_remote P (Some c) (Some r) = Val v -> opened P r (ck_data (sk_remote (cx_storage c))) [] v.
Proof. intros [_ G] R H. exact (proj2 (decrypt_opened P r None _ v G R ltac:(discriminate) H)). Qed.
Lemma recovery_opened P d k v : good_key k -> ctx_gen_import_recovery P (Some d) (Some k) = Val v ->
  exists r plain, good_result r /\ d = result_wire r /\ opened P r (ck_data k) [] plain /\ root_keys_create_from_buffer P (Some plain) = Val v.
Proof.
  intros G H. unfold ctx_gen_import_recovery in H. apply rbind_Val in H. destruct H as (r & Hr & H). apply rbind_Val in H. destruct H as (plain & Hp & H).
  apply result_parse_inv in Hr. destruct Hr as (Gr & E & _). apply Some_inj in E. exists r, plain. split; [exact Gr|]. split; [exact E|]. split; [|exact H].
  exact (proj2 (decrypt_opened P r None k plain G Gr ltac:(discriminate) Hp)).
Qed.
