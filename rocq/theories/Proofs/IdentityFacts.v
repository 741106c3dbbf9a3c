From Coq Require Import ZifyBool ZifyNat ZifyN.
From Verif.Base Require Import Bytes Monad.
From Verif.Model Require Import Buffer Cipher Ecdsa Prims Engine Proto Identity Node.
From Verif.Spec Require Import BufferSpec CodecSpec IdentitySpec.
From Verif.Proofs Require Import BytesFacts BufferFacts BufferProps CodecFacts EngineFacts ProtoFacts.
Ltac Zify.zify_post_hook ::= Z.div_mod_to_equations.
Local Open Scope N_scope.

(* evaluate the field lookups of a message whose wire fields are known *)
Ltac fields := cbv [app get_bytes get_var get_msg get_rep get_u32 get_u64 get_bool N.eqb Pos.eqb option_map bool_var pbool negb].
(* --- packing and unpacking *)
Definition small (o : option bytes) : Prop := forall x, o = Some x -> blen x < two32.
Lemma pack_buffer_Some x b : pack_buffer x = Some b -> b = x /\ within_limit (blen x).
Proof. intros H. apply buffer_create_Some in H. destruct H as [-> H]. split; [reflexivity|]. apply size_ok_limit, H. Qed.
Lemma pack_buffer_ok x : within_limit (blen x) -> pack_buffer x = Some x.
Proof. apply create_limit. Qed.
Lemma blen_len_opt t o x : o = Some x -> blen x <= blen (f_len_opt t o).
Proof. intros ->. apply blen_f_len. Qed.

Definition pb_identity_ok (m : pb_identity) : Prop :=
  small (pi_identifier m) /\ small (pi_sig_key m) /\ small (pi_signature m) /\ (forall t, pi_type m = Some t -> t < two32).
Lemma pb_identity_roundtrip m : pb_identity_ok m -> pb_identity_unpack (pb_identity_pack m) = Some m.
Proof.
  intros (A & B & C & D). unfold pb_identity_unpack, pb_identity_pack.
  rewrite <- (app_nil_r (f_var_opt 5 _)), <- ?app_assoc.
  rewrite !scan_len_opt by (lia || assumption).
  rewrite !scan_var_opt; [|lia| |lia|].
  2:{ intros x. destruct (pi_is_private m) as [[]|]; cbn; intros H; inversion H; subst; reflexivity. }
  2:{ intros x H. apply D in H. unfold two32, two64 in *. lia. }
  rewrite scan_nil. destruct m as [i k s t p]. cbn [pi_identifier pi_sig_key pi_signature pi_type pi_is_private] in *.
  assert (E : forall x, t = Some x -> u32 x = x) by (intros x H; apply N.mod_small, D, H).
  destruct i, k, s, t as [t|], p as [[]|]; fields; rewrite ?(E t eq_refl); reflexivity.
Qed.
Definition pb_chain_ok (m : pb_chain) : Prop :=
  (forall r, pc_root m = Some r -> pb_identity_ok r /\ blen (pb_identity_pack r) < two32) /\
  (forall r, pc_node m = Some r -> pb_identity_ok r /\ blen (pb_identity_pack r) < two32).
Lemma pb_chain_roundtrip m : pb_chain_ok m -> pb_chain_unpack (pb_chain_pack m) = Some m.
Proof.
  intros (A & B). unfold pb_chain_unpack, pb_chain_pack.
  rewrite <- (app_nil_r (f_len_opt 2 _)).
  rewrite !scan_len_opt; [|lia| |lia|].
  2:{ intros x H. destruct (pc_node m) as [r|]; [|discriminate]. apply Some_inj in H. subst x. apply B. reflexivity. }
  2:{ intros x H. destruct (pc_root m) as [r|]; [|discriminate]. apply Some_inj in H. subst x. apply A. reflexivity. }
  rewrite scan_nil. destruct m as [r n]. cbn [pc_root pc_node] in *.
  destruct r as [r|], n as [n|]; fields;
    rewrite ?(pb_identity_roundtrip r) by (apply (A r); reflexivity);
    rewrite ?(pb_identity_roundtrip n) by (apply (B n); reflexivity); reflexivity.
Qed.
Definition pb_keypair_ok (m : pb_keypair) : Prop :=
  (forall t, pk_identifier m = Some t -> t < two64) /\ small (pk_ec_key m) /\ small (pk_signature m).
Lemma pb_keypair_roundtrip m : pb_keypair_ok m -> pb_keypair_unpack (pb_keypair_pack m) = Some m.
Proof.
  intros (A & B & C). unfold pb_keypair_unpack, pb_keypair_pack.
  rewrite <- (app_nil_r (f_len_opt 3 _)), <- ?app_assoc.
  rewrite scan_var_opt by (lia || assumption). rewrite !scan_len_opt by (lia || assumption).
  rewrite scan_nil. destruct m as [i k s]. cbn [pk_identifier pk_ec_key pk_signature] in *.
  assert (E : forall x, i = Some x -> u64 x = x) by (intros x H; apply N.mod_small, A, H).
  destruct i as [i|], k, s; fields; rewrite ?(E i eq_refl); reflexivity.
Qed.
Definition pb_node_ok (m : pb_node) : Prop :=
  small (pn_devid m) /\
  (forall r, pn_chain m = Some r -> pb_chain_ok r /\ blen (pb_chain_pack r) < two32) /\
  (forall r, pn_keypair m = Some r -> pb_keypair_ok r /\ blen (pb_keypair_pack r) < two32).
Lemma pb_node_roundtrip m : pb_node_ok m -> pb_node_unpack (pb_node_pack m) = Some m.
Proof.
  intros (A & B & C). unfold pb_node_unpack, pb_node_pack.
  rewrite <- (app_nil_r (f_len_opt 3 _)), <- ?app_assoc.
  rewrite !scan_len_opt; [|lia| |lia| |lia|assumption].
  2:{ intros x H. destruct (pn_keypair m) as [r|]; [|discriminate]. apply Some_inj in H. subst x. apply C. reflexivity. }
  2:{ intros x H. destruct (pn_chain m) as [r|]; [|discriminate]. apply Some_inj in H. subst x. apply B. reflexivity. }
  rewrite scan_nil. destruct m as [d c k]. cbn [pn_devid pn_chain pn_keypair] in *.
  destruct d, c as [c|], k as [k|]; fields;
    rewrite ?(pb_chain_roundtrip c) by (apply (B c); reflexivity);
    rewrite ?(pb_keypair_roundtrip k) by (apply (C k); reflexivity); reflexivity.
Qed.

(* --- keys *)
Lemma import_public P o : ec_ok P -> p_o2i P o = Some o -> p_inf P o = false ->
  ec_key_import P (Some (x00 :: o)) false = Some {| ek_curve := P521; ek_pub := x00 :: o; ek_pri := None |}.
Proof.
  intros (_ & _ & E) H I. destruct (E _ _ H) as [_ L].
  destruct o as [|c o]; [unfold blen in L; cbn [length] in L; lia|].
  unfold ec_key_import, evp_public_key_from_buffer. change (curve_find (b2n x00)) with (Some P521). cbv iota beta.
  rewrite H, I. unfold ec_pub_key_to_buffer. change (n2b (curve_id P521)) with x00.
  rewrite create_limit by (rewrite !blen_cons in *; unfold within_limit, library_limit; lia). reflexivity.
Qed.
Lemma import_private P d pub : ec_ok P -> p_d2i P d = Some (pub, d) -> p_inf P pub = false ->
  ec_key_import P (Some d) true = Some {| ek_curve := P521; ek_pub := x00 :: pub; ek_pri := Some d |}.
Proof.
  intros (_ & D & E) H I. destruct (D _ _ _ H) as (_ & H2 & L2). destruct (E _ _ H2) as [_ L].
  unfold ec_key_import. rewrite H, I. unfold ec_pub_key_to_buffer, ec_pri_key_to_buffer. change (n2b (curve_id P521)) with x00.
  rewrite create_limit by (rewrite !blen_cons in *; unfold within_limit, library_limit; lia).
  rewrite create_limit by (unfold within_limit, library_limit; lia). reflexivity.
Qed.
Lemma pub_to_buffer_Some o p : ec_pub_key_to_buffer P521 o = Some p -> p = x00 :: o.
Proof. unfold ec_pub_key_to_buffer. change (n2b (curve_id P521)) with x00. generalize (x00 :: o). intros l H. apply buffer_create_Some in H. apply H. Qed.
Lemma pri_to_buffer_Some o p : ec_pri_key_to_buffer o = Some p -> p = o.
Proof. unfold ec_pri_key_to_buffer. intros H. apply buffer_create_Some in H. apply H. Qed.
(* what the engine's keys look like *)
Lemma engine_key_form P k : ec_ok P -> gen_ok P -> engine_key P k ->
  exists pub, ek_pub k = x00 :: pub /\ ek_curve k = P521 /\ p_o2i P pub = Some pub /\ p_inf P pub = false /\
    (forall d, ek_pri k = Some d -> p_d2i P d = Some (pub, d)).
Proof.
  intros EO GO [s s' H|b priv H].
  - unfold ec_rand_key in H. destruct (p_ec_gen P s) as [[pub pri]|] eqn:G; [|discriminate].
    destruct (GO _ _ _ G) as [I L]. destruct EO as (E1 & E2 & E3). pose proof (E1 _ _ _ G) as Hd. destruct (E2 _ _ _ Hd) as (_ & Ho & Lp).
    destruct (ec_pri_key_to_buffer pri) as [q|] eqn:Q; [|discriminate].
    destruct (ec_pub_key_to_buffer P521 pub) as [p|] eqn:B; [|discriminate].
    apply pri_to_buffer_Some in Q. apply pub_to_buffer_Some in B. subst q p.
    cbn [ec_key_create lift] in H. injection H as <- _. exists pub. cbn [ek_pub ek_curve ek_pri].
    repeat split; try assumption. intros d Hd'. apply Some_inj in Hd'. subst d. exact Hd.
  - destruct EO as (E1 & E2 & E3). unfold ec_key_import in H. destruct priv.
    + destruct (p_d2i P b) as [[pub der]|] eqn:D; [|discriminate]. destruct (p_inf P pub) eqn:I; [discriminate|].
      destruct (E2 _ _ _ D) as (D2 & O & _).
      destruct (ec_pub_key_to_buffer P521 pub) as [p|] eqn:B; [|discriminate].
      destruct (ec_pri_key_to_buffer der) as [q|] eqn:Q; [|discriminate].
      apply pri_to_buffer_Some in Q. apply pub_to_buffer_Some in B. subst q p.
      cbn [ec_key_create] in H. apply Some_inj in H. subst k. exists pub. cbn [ek_pub ek_curve ek_pri].
      repeat split; try assumption. intros d Hd. apply Some_inj in Hd. subst d. exact D2.
    + destruct (evp_public_key_from_buffer P b) as [pub|] eqn:D; [|discriminate]. destruct (p_inf P pub) eqn:I; [discriminate|].
      assert (O : p_o2i P pub = Some pub).
      { unfold evp_public_key_from_buffer in D. destruct b as [|c [|x b]]; try discriminate.
        destruct (curve_find (b2n c)) as [[]|]; [|discriminate]. exact (proj1 (E3 _ _ D)). }
      destruct (ec_pub_key_to_buffer P521 pub) as [p|] eqn:B; [|discriminate].
      apply pub_to_buffer_Some in B. subst p.
      cbn [ec_key_create] in H. apply Some_inj in H. subst k. exists pub. cbn [ek_pub ek_curve ek_pri].
      repeat split; try assumption. intros d Hd. discriminate.
Qed.
Lemma engine_key_importable P k : ec_ok P -> gen_ok P -> engine_key P k -> importable P k.
Proof.
  intros EO GO H. destruct (engine_key_form P k EO GO H) as (pub & E1 & E2 & E3 & E4 & _).
  unfold importable, public_key. rewrite E1, E2. apply import_public; assumption.
Qed.
Lemma engine_key_importable_private P k : ec_ok P -> gen_ok P -> engine_key P k -> ek_pri k <> None -> importable_private P k.
Proof.
  intros EO GO H N. destruct (engine_key_form P k EO GO H) as (pub & E1 & E2 & E3 & E4 & E5).
  destruct k as [c p q]. cbn [ek_curve ek_pub ek_pri] in *. destruct q as [q|]; [|congruence].
  exists q. split; [reflexivity|]. rewrite (import_private P q pub EO (E5 _ eq_refl) E4). subst. reflexivity.
Qed.

(* --- objects *)
Lemma within_small x y : within_limit (blen y) -> blen x <= blen y -> blen x < two32.
Proof. unfold within_limit, library_limit, two32. lia. Qed.
Lemma f_len_opt_le t o x : o = Some x -> blen x <= blen (f_len_opt t o).
Proof. intros ->. apply blen_f_len. Qed.
Lemma identity_pack_ok m : blen (pb_identity_pack m) <= library_limit -> (forall t, pi_type m = Some t -> t < two32) -> pb_identity_ok m.
Proof.
  intros L T. unfold pb_identity_pack in L. rewrite !blen_app in L. unfold library_limit in L.
  repeat split; try exact T; intros x H.
  - pose proof (f_len_opt_le 1 _ _ H). unfold two32. lia.
  - pose proof (f_len_opt_le 2 _ _ H). unfold two32. lia.
  - pose proof (f_len_opt_le 3 _ _ H). unfold two32. lia.
Qed.
Lemma build_type x p m : identity_build_proto x p = Some m -> forall t, pi_type m = Some t -> t < two32.
Proof.
  unfold identity_build_proto. destruct (if p then _ else _) as [k|]; [|discriminate].
  destruct (id_type x).
  - intros H. apply Some_inj in H. subst m. cbn [pi_type]. intros t H. apply Some_inj in H. subst t. reflexivity.
  - destruct (ecdsa_result_serialize _); [|discriminate]. intros H. apply Some_inj in H. subst m. cbn [pi_type]. intros t H. apply Some_inj in H. subst t. reflexivity.
Qed.
Lemma build_private x p m : identity_build_proto x p = Some m -> pi_is_private m = Some p.
Proof.
  unfold identity_build_proto. destruct (if p then _ else _) as [k|]; [|discriminate].
  destruct (id_type x); [|destruct (ecdsa_result_serialize _); [|discriminate]]; intros H; apply Some_inj in H; subst m; reflexivity.
Qed.
Lemma identity_from_build P x m : good_identity P x -> identity_build_proto x false = Some m ->
  identity_create_from_proto P (Some m) = Val (public_identity x).
Proof.
  intros (I & K & S). unfold identity_build_proto. destruct x as [t i k s]. cbn [id_type id_identifier id_key id_signature] in *.
  destruct t.
  - intros H. apply Some_inj in H. subst m. subst s. unfold identity_create_from_proto. cbn [pi_identifier pi_sig_key pi_type pi_is_private pi_signature].
    rewrite create_limit by (unfold within_limit, library_limit; lia). cbn [lift rbind]. rewrite K. cbn [lift rbind].
    unfold identity_create, MAX_IDENTIFIER_LEN. replace (128 <=? blen i) with false by lia. reflexivity.
  - destruct S as (sg & -> & G). rewrite (sig_serialize_ok sg G). intros H. apply Some_inj in H. subst m.
    unfold identity_create_from_proto. cbn [pi_identifier pi_sig_key pi_type pi_is_private pi_signature].
    rewrite create_limit by (unfold within_limit, library_limit; lia). cbn [lift rbind]. rewrite K. cbn [lift rbind].
    rewrite (sig_parse_ok sg G). cbn [lift rbind].
    unfold identity_create, MAX_IDENTIFIER_LEN. replace (128 <=? blen i) with false by lia. reflexivity.
Qed.
Lemma identity_from_build_private P x m : good_identity P x -> importable_private P (id_key x) -> identity_build_proto x true = Some m ->
  identity_create_from_proto P (Some m) = Val x.
Proof.
  intros (I & _ & S) (d & Hd & K). unfold identity_build_proto. destruct x as [t i k s]. cbn [id_type id_identifier id_key id_signature] in *.
  rewrite Hd. destruct t.
  - intros H. apply Some_inj in H. subst m. subst s. unfold identity_create_from_proto. cbn [pi_identifier pi_sig_key pi_type pi_is_private pi_signature].
    rewrite create_limit by (unfold within_limit, library_limit; lia). cbn [lift rbind]. rewrite K. cbn [lift rbind].
    unfold identity_create, MAX_IDENTIFIER_LEN. replace (128 <=? blen i) with false by lia. reflexivity.
  - destruct S as (sg & -> & G). rewrite (sig_serialize_ok sg G). intros H. apply Some_inj in H. subst m.
    unfold identity_create_from_proto. cbn [pi_identifier pi_sig_key pi_type pi_is_private pi_signature].
    rewrite create_limit by (unfold within_limit, library_limit; lia). cbn [lift rbind]. rewrite K. cbn [lift rbind].
    rewrite (sig_parse_ok sg G). cbn [lift rbind].
    unfold identity_create, MAX_IDENTIFIER_LEN. replace (128 <=? blen i) with false by lia. reflexivity.
Qed.
Lemma build_chain_inv c p m : chain_build_proto c p = Some m ->
  exists r n, identity_build_proto (ch_root c) p = Some r /\ identity_build_proto (ch_node c) p = Some n /\ m = {| pc_root := Some r; pc_node := Some n |}.
Proof.
  unfold chain_build_proto. destruct (identity_build_proto (ch_root c) p) as [r|]; [|discriminate].
  destruct (identity_build_proto (ch_node c) p) as [n|]; [|discriminate]. intros H. apply Some_inj in H. subst m. eauto.
Qed.
Lemma chain_pack_ok c p m : chain_build_proto c p = Some m -> blen (pb_chain_pack m) <= library_limit -> pb_chain_ok m.
Proof.
  intros B L. destruct (build_chain_inv _ _ _ B) as (r & n & Hr & Hn & ->). unfold pb_chain_pack in L. cbn [pc_root pc_node option_map f_len_opt] in L.
  rewrite blen_app in L. pose proof (blen_f_len 1 (pb_identity_pack r)). pose proof (blen_f_len 2 (pb_identity_pack n)).
  split; cbn [pc_root pc_node]; intros x H1; apply Some_inj in H1; subst x; (split; [apply identity_pack_ok; [lia|]|unfold library_limit, two32 in *; lia]).
  - exact (build_type _ _ _ Hr).
  - exact (build_type _ _ _ Hn).
Qed.
Lemma chain_from_build P c m : good_chain P c -> chain_build_proto c false = Some m ->
  chain_create_from_proto P (Some m) = Val (public_chain c).
Proof.
  intros (Gr & Gn) B. destruct (build_chain_inv _ _ _ B) as (r & n & Hr & Hn & ->). unfold chain_create_from_proto. cbn [pc_root pc_node].
  rewrite (identity_from_build P _ _ Gr Hr), (identity_from_build P _ _ Gn Hn). reflexivity.
Qed.
Lemma identity_roundtrip P x b : good_identity P x -> identity_serialize (Some x) = Some b ->
  identity_create_from_buffer P (Some b) = Val (public_identity x).
Proof.
  intros G. unfold identity_serialize. destruct (identity_build_proto x false) as [m|] eqn:B; [|discriminate]. intros H.
  apply pack_buffer_Some in H. destruct H as [-> L]. unfold identity_create_from_buffer.
  rewrite pb_identity_roundtrip by (apply identity_pack_ok; [apply L|exact (build_type _ _ _ B)]). cbn [lift rbind].
  exact (identity_from_build P x m G B).
Qed.
Lemma chain_roundtrip P c b : good_chain P c -> chain_serialize (Some c) = Some b ->
  chain_create_from_buffer P (Some b) = Val (public_chain c).
Proof.
  intros G. unfold chain_serialize, chain_serialize_with. destruct (chain_build_proto c false) as [m|] eqn:B; [|discriminate]. intros H.
  apply pack_buffer_Some in H. destruct H as [-> L]. unfold chain_create_from_buffer.
  rewrite pb_chain_roundtrip by (apply (chain_pack_ok c false); [exact B|apply L]). cbn [lift rbind].
  exact (chain_from_build P c m G B).
Qed.
Lemma chain_private_roundtrip P c b : good_chain P c -> importable_private P (id_key (ch_root c)) -> importable_private P (id_key (ch_node c)) ->
  chain_serialize_private (Some c) = Some b ->
  chain_create_from_buffer P (Some b) = Val {| ch_root := ch_root c; ch_node := ch_node c; ch_status := S_UNKNOWN; ch_cache := None |}.
Proof.
  intros (Gr & Gn) Ir In. unfold chain_serialize_private, chain_serialize_with. destruct (chain_build_proto c true) as [m|] eqn:B; [|discriminate]. intros H.
  apply pack_buffer_Some in H. destruct H as [-> L]. unfold chain_create_from_buffer.
  rewrite pb_chain_roundtrip by (apply (chain_pack_ok c true); [exact B|apply L]). cbn [lift rbind].
  destruct (build_chain_inv _ _ _ B) as (r & n & Hr & Hn & ->). unfold chain_create_from_proto. cbn [pc_root pc_node].
  rewrite (identity_from_build_private P _ _ Gr Ir Hr), (identity_from_build_private P _ _ Gn In Hn). reflexivity.
Qed.
Lemma keypair_build_ok k m : keypair_to_proto k = Some m -> kp_identifier k < 2 ^ 64 -> blen (pb_keypair_pack m) <= library_limit -> pb_keypair_ok m.
Proof.
  unfold keypair_to_proto. intros B I L.
  assert (E : pk_identifier m = Some (kp_identifier k)).
  { destruct (kp_signature k); [destruct (ecdsa_result_serialize _); [|discriminate]|]; apply Some_inj in B; subst m; reflexivity. }
  unfold pb_keypair_pack in L. rewrite !blen_app in L. unfold library_limit in L. split; [|split].
  - intros t H. rewrite E in H. apply Some_inj in H. subst t. exact I.
  - intros x H. pose proof (f_len_opt_le 2 _ _ H). unfold two32. lia.
  - intros x H. pose proof (f_len_opt_le 3 _ _ H). unfold two32. lia.
Qed.
Lemma keypair_from_build P k m : good_keypair P k -> keypair_to_proto k = Some m -> keypair_create_from_proto P (Some m) = Val (public_keypair k).
Proof.
  intros (I & K & S). unfold keypair_to_proto. destruct k as [i key s]. cbn [kp_identifier kp_key kp_signature] in *.
  destruct s as [sg|].
  - rewrite (sig_serialize_ok sg (S _ eq_refl)). intros H. apply Some_inj in H. subst m. unfold keypair_create_from_proto.
    cbn [pk_ec_key pk_identifier pk_signature]. rewrite K. cbn [lift rbind]. rewrite (sig_parse_ok sg (S _ eq_refl)). reflexivity.
  - intros H. apply Some_inj in H. subst m. unfold keypair_create_from_proto. cbn [pk_ec_key pk_identifier pk_signature].
    rewrite K. reflexivity.
Qed.
Lemma keypair_roundtrip P k b : good_keypair P k -> keypair_serialize (Some k) = Some b ->
  keypair_create_from_buffer P (Some b) = Val (public_keypair k).
Proof.
  intros G. unfold keypair_serialize. destruct (keypair_to_proto k) as [m|] eqn:B; [|discriminate]. intros H.
  apply pack_buffer_Some in H. destruct H as [-> L]. unfold keypair_create_from_buffer.
  rewrite pb_keypair_roundtrip by (apply (keypair_build_ok k); [exact B|apply G|apply L]). cbn [lift rbind].
  exact (keypair_from_build P k m G B).
Qed.
Lemma node_roundtrip P n b : good_node P n -> node_serialize (Some n) = Some b ->
  node_create_from_buffer P (Some b) = Val (public_node n).
Proof.
  intros (D & C & K). unfold node_serialize. destruct (node_to_proto n) as [m|] eqn:B; [|discriminate]. intros H.
  apply pack_buffer_Some in H. destruct H as [-> L]. unfold node_create_from_buffer.
  unfold node_to_proto in B. destruct n as [d c k st ca]. cbn [nd_dev_id nd_chain nd_keypair] in *.
  destruct (chain_build_proto c false) as [mc|] eqn:Bc; [|destruct k as [k|]; [destruct (keypair_to_proto k)|]; discriminate].
  assert (HL : forall kp, blen (pb_node_pack {| pn_devid := Some d; pn_chain := Some mc; pn_keypair := kp |}) <= library_limit ->
     blen d <= library_limit /\ blen (pb_chain_pack mc) <= library_limit /\ (forall x, kp = Some x -> blen (pb_keypair_pack x) <= library_limit)).
  { intros kp. unfold pb_node_pack. cbn [pn_devid pn_chain pn_keypair option_map f_len_opt]. rewrite !blen_app.
    pose proof (blen_f_len 1 d). pose proof (blen_f_len 2 (pb_chain_pack mc)). intros Q. split; [lia|]. split; [lia|].
    intros x ->. cbn [option_map f_len_opt] in Q. pose proof (blen_f_len 3 (pb_keypair_pack x)). lia. }
  destruct k as [k|].
  - destruct (keypair_to_proto k) as [mk|] eqn:Bk; [|discriminate]. apply Some_inj in B. subst m.
    destruct (HL _ (proj2 L)) as (Ld & Lc & Lk). specialize (Lk _ eq_refl).
    rewrite pb_node_roundtrip.
    + cbn [lift rbind]. unfold node_create_from_proto. cbn [pn_devid pn_chain pn_keypair].
      rewrite create_limit by (unfold within_limit; lia). cbn [lift rbind]. rewrite (chain_from_build P c mc C Bc). cbn [lift rbind].
      rewrite (keypair_from_build P k mk (K _ eq_refl) Bk). reflexivity.
    + split; [|split]; cbn [pn_devid pn_chain pn_keypair].
      * intros x H. apply Some_inj in H. subst x. unfold library_limit, two32 in *. lia.
      * intros x H. apply Some_inj in H. subst x. split; [exact (chain_pack_ok _ _ _ Bc Lc)|unfold library_limit, two32 in *; lia].
      * intros x H. apply Some_inj in H. subst x. split; [apply (keypair_build_ok k mk Bk); [apply (K _ eq_refl)|exact Lk]|unfold library_limit, two32 in *; lia].
  - apply Some_inj in B. subst m. destruct (HL _ (proj2 L)) as (Ld & Lc & _).
    rewrite pb_node_roundtrip.
    + cbn [lift rbind]. unfold node_create_from_proto. cbn [pn_devid pn_chain pn_keypair].
      rewrite create_limit by (unfold within_limit; lia). cbn [lift rbind]. rewrite (chain_from_build P c mc C Bc). reflexivity.
    + split; [|split]; cbn [pn_devid pn_chain pn_keypair].
      * intros x H. apply Some_inj in H. subst x. unfold library_limit, two32 in *. lia.
      * intros x H. apply Some_inj in H. subst x. split; [exact (chain_pack_ok _ _ _ Bc Lc)|unfold library_limit, two32 in *; lia].
      * intros x H. discriminate.
Qed.
