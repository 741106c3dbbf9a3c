From Coq Require Import ZifyBool ZifyNat ZifyN.
From Verif.Base Require Import Bytes Monad.
From Verif.Model Require Import Buffer Cipher Ecdsa Prims Engine Proto Identity Node.
From Verif.Spec Require Import BufferSpec CodecSpec IdentitySpec.
From Verif.Proofs Require Import BytesFacts BufferFacts BufferProps CodecFacts EngineFacts ProtoFacts IdentityFacts CacheFacts.
Ltac Zify.zify_post_hook ::= Z.div_mod_to_equations.
Local Open Scope N_scope.

(* --- signatures of engine keys verify *)
Lemma engine_verify_key P k : ec_ok P -> gen_ok P -> engine_key P k ->
  exists pub, evp_public_key_from_buffer P (ek_pub k) = Some pub /\ forall d, ek_pri k = Some d -> pairs P pub d.
Proof.
  intros EO GO H. destruct (engine_key_form P k EO GO H) as (pub & E1 & _ & E3 & _ & E5). exists pub. split.
  - rewrite E1. unfold evp_public_key_from_buffer. destruct EO as (_ & _ & EO). destruct (EO _ _ E3) as [_ L].
    destruct pub as [|c pub]; [unfold blen in L; cbn [length] in L; lia|]. change (curve_find (b2n x00)) with (Some P521). exact E3.
  - intros d Hd. exists d. exact (E5 d Hd).
Qed.
Lemma sign_verifies P k d dg s sg s' : ec_ok P -> gen_ok P -> sign_ok P -> engine_key P k ->
  ec_sign P (Some k) (Some d) dg s = (Val sg, s') ->
  ec_verify P (Some sg) (Some k) (Some d) = true /\ good_sig sg /\ es_digest sg = dg.
Proof.
  intros EO GO SO EK. unfold ec_sign. destruct (ek_pri k) as [pri|] eqn:E; [|discriminate].
  destruct (p_d2i P pri); [|discriminate]. destruct (p_sign P dg pri d s) as [x|] eqn:S; [|discriminate].
  cbn [ecdsa_result_create lift]. intros H. injection H as <- _.
  destruct (engine_verify_key P k EO GO EK) as (pub & E1 & E2). destruct (SO _ _ _ _ _ _ (E2 _ E) S) as [V L].
  unfold ec_verify. rewrite E1. cbn [es_digest es_sig]. split; [exact V|]. split; [exact L|reflexivity].
Qed.
Lemma identity_sign_verifies P x d s sg s' : ec_ok P -> gen_ok P -> sign_ok P -> engine_key P (id_key x) ->
  identity_sign P (Some x) (Some d) s = (Val sg, s') ->
  ec_verify P (Some sg) (Some (id_key x)) (Some d) = true /\ good_sig sg /\ es_digest sg = SHA512.
Proof.
  intros EO GO SO EK. unfold identity_sign. destruct (ek_pri (id_key x)); [|discriminate]. apply sign_verifies; assumption.
Qed.
(* --- generated nodes and keypairs *)
Lemma node_gen_ok P root i s n s' : ec_ok P -> gen_ok P -> sign_ok P -> rand_ok P -> engine_key P (id_key root) ->
  node_identity_gen P (Some root) i s = (Val n, s') ->
  id_type n = ID_NODE /\ engine_key P (id_key n) /\ good_identity P n /\ full_size (id_key n) /\
  (forall x, i = Some x -> id_identifier n = x) /\
  ec_verify P (id_signature n) (Some (id_key root)) (Some (pub_of n)) = true.
Proof.
  intros EO GO SO RO EK. unfold node_identity_gen. destruct (id_type root); [|discriminate]. intros H.
  apply mbind_Val in H. destruct H as (k & s1 & Hk & H). apply mbind_Val in H. destruct H as (sg & s2 & Hs & H).
  apply mbind_Val in H. destruct H as (ni & s3 & Hi & H). apply mlift_Val in H. destruct H as [H _].
  unfold identity_create in H. destruct (MAX_IDENTIFIER_LEN <=? blen ni) eqn:L; [discriminate|]. apply Some_inj in H. subst n.
  cbn [id_type id_key id_identifier id_signature]. assert (EKk : engine_key P k) by exact (made_random P k _ _ Hk).
  destruct (identity_sign_verifies P root _ _ _ _ EO GO SO EK Hs) as (V & G & _). unfold MAX_IDENTIFIER_LEN in L.
  assert (NE : 0 < blen ni).
  { destruct i as [i|].
    - apply mlift_Val in Hi. destruct Hi as [Hi _]. apply buffer_copy_Some in Hi. unfold within_limit in Hi. lia.
    - apply crypto_random_Val in Hi. destruct Hi as (Hi & _). apply RO in Hi. rewrite Hi. reflexivity. }
  split; [reflexivity|]. split; [exact EKk|]. split; [|split; [|split]].
  - split; [cbn [id_identifier]; lia|]. split; [exact (engine_key_importable P k EO GO EKk)|]. cbn [id_type id_signature]. eauto.
  - unfold full_size. clear - Hk GO. unfold ec_rand_key in Hk. destruct (p_ec_gen P s) as [[pub pri]|] eqn:G; [|discriminate].
    destruct (GO _ _ _ G) as [_ L]. destruct (ec_pri_key_to_buffer pri) as [q|]; [|discriminate].
    destruct (ec_pub_key_to_buffer P521 pub) as [p|] eqn:B; [|discriminate]. apply pub_to_buffer_Some in B. subst p.
    cbn [ec_key_create lift] in Hk. injection Hk as <- _. cbn [ek_pub length id_key]. unfold blen in L. lia.
  - intros x ->. apply mlift_Val in Hi. destruct Hi as [Hi _]. apply buffer_copy_Some in Hi. destruct Hi as [Hi _]. congruence.
  - exact V.
Qed.
Lemma generated_chain_valid P root i s n s' c : ec_ok P -> gen_ok P -> sign_ok P -> rand_ok P -> engine_key P (id_key root) ->
  node_identity_gen P (Some root) i s = (Val n, s') -> chain_create (Some root) (Some n) = Some c -> fst (chain_validate P c) = true.
Proof.
  intros EO GO SO RO EK H C. destruct (node_gen_ok P root i s n s' EO GO SO RO EK H) as (_ & _ & _ & _ & _ & V).
  cbn [chain_create] in C. apply Some_inj in C. subst c. unfold chain_validate, chain_has_valid_cache. cbn [ch_cache fst ch_node ch_root]. exact V.
Qed.
Lemma keypair_gen_ok P i x s k s' : ec_ok P -> gen_ok P -> sign_ok P -> engine_key P (id_key x) ->
  keypair_generate_identity P i (Some x) s = (Val k, s') ->
  kp_identifier k = i /\ engine_key P (kp_key k) /\ full_size (kp_key k) /\ (i < 2 ^ 64 -> good_keypair P k) /\
  keypair_verify_owner P (Some k) (Some x) = true /\ ek_pri (kp_key k) <> None.
Proof.
  intros EO GO SO EK H. unfold keypair_generate_identity in H.
  apply mbind_Val in H. destruct H as (kk & s1 & Hk & H). apply mbind_Val in H. destruct H as (sg & s2 & Hs & H).
  apply mlift_Val in H. destruct H as [H _]. cbn [keypair_create] in H. apply Some_inj in H. subst k.
  assert (EKk : engine_key P kk) by exact (made_random P kk _ _ Hk).
  destruct (identity_sign_verifies P x _ _ _ _ EO GO SO EK Hs) as (V & G & _).
  cbn [kp_identifier kp_key kp_signature]. split; [reflexivity|]. split; [exact EKk|].
  assert (F : full_size kk /\ ek_pri kk <> None).
  { clear - Hk GO. unfold full_size, ec_rand_key in *. destruct (p_ec_gen P s) as [[pub pri]|] eqn:G; [|discriminate].
    destruct (GO _ _ _ G) as [_ L]. destruct (ec_pri_key_to_buffer pri) as [q|]; [|discriminate].
    destruct (ec_pub_key_to_buffer P521 pub) as [p|] eqn:B; [|discriminate]. apply pub_to_buffer_Some in B. subst p.
    cbn [ec_key_create lift] in Hk. injection Hk as <- _. cbn [ek_pub ek_pri length]. unfold blen in L. split; [lia|discriminate]. }
  split; [apply F|]. split; [|split; [exact V|apply F]].
  intros L. split; [exact L|]. split; [exact (engine_key_importable P kk EO GO EKk)|].
  cbn [kp_signature]. intros z E. apply Some_inj in E. subst z. exact G.
Qed.

(* --- serialization shows only public parts *)
Lemma build_public x y p : public_identity x = public_identity y -> p = false -> identity_build_proto x p = identity_build_proto y p.
Proof.
  intros E ->. assert (E1 : id_type x = id_type y) by exact (f_equal id_type E).
  assert (E2 : id_identifier x = id_identifier y) by exact (f_equal id_identifier E).
  assert (E3 : ek_pub (id_key x) = ek_pub (id_key y)) by exact (f_equal (fun z => ek_pub (id_key z)) E).
  assert (E4 : id_signature x = id_signature y) by exact (f_equal id_signature E).
  unfold identity_build_proto. rewrite E1, E2, E3, E4. reflexivity.
Qed.
Lemma chain_build_public c d : public_chain c = public_chain d -> chain_build_proto c false = chain_build_proto d false.
Proof.
  intros E. unfold chain_build_proto.
  rewrite (build_public (ch_root c) (ch_root d) false (f_equal ch_root E) eq_refl).
  rewrite (build_public (ch_node c) (ch_node d) false (f_equal ch_node E) eq_refl). reflexivity.
Qed.
Lemma keypair_public k l : public_keypair k = public_keypair l -> keypair_to_proto k = keypair_to_proto l.
Proof.
  intros E. assert (E1 : kp_identifier k = kp_identifier l) by exact (f_equal kp_identifier E).
  assert (E2 : ek_pub (kp_key k) = ek_pub (kp_key l)) by exact (f_equal (fun z => ek_pub (kp_key z)) E).
  assert (E3 : kp_signature k = kp_signature l) by exact (f_equal kp_signature E).
  unfold keypair_to_proto. rewrite E1, E2, E3. reflexivity.
Qed.
Lemma identity_serialize_public x y : public_identity x = public_identity y -> identity_serialize (Some x) = identity_serialize (Some y).
Proof. intros E. unfold identity_serialize. rewrite (build_public x y false E eq_refl). reflexivity. Qed.
Lemma chain_serialize_public c d : public_chain c = public_chain d -> chain_serialize (Some c) = chain_serialize (Some d).
Proof. intros E. unfold chain_serialize, chain_serialize_with. rewrite (chain_build_public c d E). reflexivity. Qed.
Lemma keypair_serialize_public k l : public_keypair k = public_keypair l -> keypair_serialize (Some k) = keypair_serialize (Some l).
Proof. intros E. unfold keypair_serialize. rewrite (keypair_public k l E). reflexivity. Qed.
Lemma node_serialize_public m n : public_node m = public_node n -> node_serialize (Some m) = node_serialize (Some n).
Proof.
  intros E. unfold node_serialize, node_to_proto.
  assert (E1 : nd_dev_id m = nd_dev_id n) by exact (f_equal nd_dev_id E).
  rewrite (chain_build_public (nd_chain m) (nd_chain n) (f_equal nd_chain E)), E1.
  assert (E2 : option_map public_keypair (nd_keypair m) = option_map public_keypair (nd_keypair n)) by exact (f_equal nd_keypair E).
  destruct (nd_keypair m) as [k|], (nd_keypair n) as [l|]; try discriminate; [|reflexivity].
  cbn [option_map] in E2. apply Some_inj in E2. rewrite (keypair_public k l E2). reflexivity.
Qed.
Lemma import_public_none P b k : ec_key_import P b false = Some k -> ek_pri k = None.
Proof.
  unfold ec_key_import. destruct b as [b|]; [|discriminate]. destruct (evp_public_key_from_buffer P b) as [pub|]; [|discriminate].
  destruct (p_inf P pub); [discriminate|]. destruct (ec_pub_key_to_buffer P521 pub); [|discriminate]. cbn [ec_key_create].
  intros H. apply Some_inj in H. subst k. reflexivity.
Qed.
Lemma from_proto_public P m x : pi_is_private m <> Some true -> identity_create_from_proto P (Some m) = Val x -> ek_pri (id_key x) = None.
Proof.
  intros NP. unfold identity_create_from_proto. destruct (pi_identifier m) as [i|]; [|discriminate]. destruct (pi_sig_key m) as [k|]; [|discriminate].
  destruct (pi_type m) as [t|]; [|discriminate]. intros H. apply rbind_Val in H. destruct H as (ib & _ & H).
  replace (match pi_is_private m with Some b => b | None => false end) with false in H by (destruct (pi_is_private m) as [[]|]; congruence).
  apply rbind_Val in H. destruct H as (key & Hk & H). apply lift_Val' in Hk. apply import_public_none in Hk.
  apply rbind_Val in H. destruct H as (sg & _ & H). apply lift_Val' in H. unfold identity_create in H.
  destruct (MAX_IDENTIFIER_LEN <=? _); [discriminate|]. apply Some_inj in H. subst x. exact Hk.
Qed.
Lemma chain_parsed_public P c b d : chain_serialize (Some c) = Some b -> chain_create_from_buffer P (Some b) = Val d ->
  ek_pri (id_key (ch_root d)) = None /\ ek_pri (id_key (ch_node d)) = None.
Proof.
  unfold chain_serialize, chain_serialize_with. destruct (chain_build_proto c false) as [m|] eqn:B; [|discriminate]. intros H.
  apply pack_buffer_Some in H. destruct H as [-> L]. unfold chain_create_from_buffer.
  rewrite pb_chain_roundtrip by (apply (chain_pack_ok c false); [exact B|apply L]). cbn [lift rbind].
  destruct (build_chain_inv _ _ _ B) as (r & n & Hr & Hn & ->). unfold chain_create_from_proto. cbn [pc_root pc_node].
  apply build_private in Hr, Hn. intros H. apply rbind_Val in H. destruct H as (x & Hx & H). apply rbind_Val in H. destruct H as (y & Hy & H).
  apply lift_Val' in H. cbn [chain_create] in H. apply Some_inj in H. subst d. cbn [ch_root ch_node].
  split; [apply (from_proto_public P r)|apply (from_proto_public P n)]; congruence.
Qed.
Lemma keypair_parsed_public P b k : keypair_create_from_buffer P b = Val k -> ek_pri (kp_key k) = None.
Proof.
  unfold keypair_create_from_buffer. destruct b as [b|]; [|discriminate]. intros H. apply rbind_Val in H. destruct H as (m & _ & H).
  unfold keypair_create_from_proto in H. destruct (pk_ec_key m); [|discriminate]. destruct (pk_identifier m); [|discriminate].
  apply rbind_Val in H. destruct H as (key & Hk & H). apply lift_Val' in Hk. apply import_public_none in Hk.
  apply rbind_Val in H. destruct H as (sg & _ & H). apply lift_Val' in H. cbn [keypair_create] in H. apply Some_inj in H. subst k. exact Hk.
Qed.
