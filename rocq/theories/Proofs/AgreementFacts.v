(* The two ends of a handshake derive the same keys. *)
From Coq Require Import ZifyBool ZifyNat ZifyN.
From Verif.Base Require Import Bytes Monad.
From Verif.Model Require Import Buffer Cipher Ecdsa Kdf Prims Engine Identity Proto Stream TransportPacket EcdhCipher Handshake Transport.
From Verif.Spec Require Import BufferSpec CodecSpec EngineSpec IdentitySpec StreamSpec TransportSpec HandshakeSpec.
From Verif.Proofs Require Import BytesFacts BufferFacts BufferProps CodecFacts EngineFacts ProtoFacts IdentityFacts CacheFacts TransportPacketFacts StreamFacts HandshakeFacts.
Ltac Zify.zify_post_hook ::= Z.div_mod_to_equations.
Local Open Scope N_scope.

(* --- messages survive the wire *)
Definition pb_seed_ok (m : pb_seed) : Prop :=
  (forall c, ps_chain m = Some c -> pb_chain_ok c /\ blen (pb_chain_pack c) < two32) /\ small (ps_pubkey m).
Lemma pb_seed_roundtrip m : pb_seed_ok m -> pb_seed_unpack (pb_seed_pack m) = Some m.
Proof.
  intros (A & B). unfold pb_seed_unpack, pb_seed_pack.
  rewrite <- (app_nil_r (f_var_opt 4 _)), <- ?app_assoc.
  rewrite scan_len_opt; [|lia|]. 2:{ intros x H. destruct (ps_chain m) as [c|]; [|discriminate]. apply Some_inj in H. subst x. apply A. reflexivity. }
  rewrite scan_len_opt by (lia || assumption).
  rewrite scan_var_opt; [|lia|]. 2:{ intros x. destruct (ps_required m) as [[]|]; cbn; intros H; inversion H; subst; reflexivity. }
  rewrite scan_nil. destruct m as [c k r]. cbn [ps_chain ps_pubkey ps_required] in *.
  destruct c as [c|], k, r as [[]|]; fields; rewrite ?(pb_chain_roundtrip c) by (apply (A c); reflexivity); reflexivity.
Qed.
Definition pb_response_ok (m : pb_response) : Prop :=
  (forall c, pr_chain m = Some c -> pb_chain_ok c /\ blen (pb_chain_pack c) < two32) /\ small (pr_pubkey m) /\ small (pr_data m).
Lemma pb_response_roundtrip m : pb_response_ok m -> pb_response_unpack (pb_response_pack m) = Some m.
Proof.
  intros (A & B & C). unfold pb_response_unpack, pb_response_pack.
  rewrite <- (app_nil_r (f_len_opt 4 _)), <- ?app_assoc.
  rewrite !scan_len_opt; try lia; try assumption. 2:{ intros x H. destruct (pr_chain m) as [c|]; [|discriminate]. apply Some_inj in H. subst x. apply A. reflexivity. }
  rewrite scan_nil. destruct m as [k d c]. cbn [pr_chain pr_pubkey pr_data] in *.
  destruct c as [c|], k, d; fields; rewrite ?(pb_chain_roundtrip c) by (apply (A c); reflexivity); reflexivity.
Qed.
Lemma seed_roundtrip c pub req sd : seed_create c pub req = Some sd -> blen (pb_handshake_pack (PSeed sd)) <= library_limit ->
  pb_handshake_unpack (pb_handshake_pack (PSeed sd)) = Some (PSeed sd).
Proof.
  unfold seed_create. destruct (chain_build_proto c false) as [m|] eqn:B; [|discriminate]. intros H L. apply Some_inj in H.
  cbn [pb_handshake_pack] in *. assert (L1 : blen (pb_seed_pack sd) <= library_limit) by (pose proof (blen_f_len 2 (pb_seed_pack sd)); lia). pose proof L1 as L3.
  assert (OK : pb_seed_ok sd).
  { subst sd. unfold pb_seed_pack in L1. cbn [ps_chain ps_pubkey ps_required option_map f_len_opt] in *. rewrite !blen_app in L1.
    pose proof (blen_f_len 2 (pb_chain_pack m)). pose proof (blen_f_len 3 pub). split; cbn [ps_chain ps_pubkey].
    - intros x E. apply Some_inj in E. subst x. split; [apply (chain_pack_ok c false m B); lia|]. unfold library_limit, two32 in *. lia.
    - intros x E. apply Some_inj in E. subst x. unfold library_limit, two32 in *. lia. }
  unfold pb_handshake_unpack. rewrite <- (app_nil_r (f_len 2 _)). rewrite scan_len; [|lia|unfold library_limit, two32 in *; lia]. rewrite scan_nil.
  cbv [get_oneof N.eqb Pos.eqb]. rewrite (pb_seed_roundtrip _ OK). reflexivity.
Qed.
Lemma response_roundtrip pub data oc r : response_create pub data oc = Some r -> blen (pb_handshake_pack (PResponse r)) <= library_limit ->
  pb_handshake_unpack (pb_handshake_pack (PResponse r)) = Some (PResponse r).
Proof.
  intros H L. cbn [pb_handshake_pack] in *. assert (L1 : blen (pb_response_pack r) <= library_limit) by (pose proof (blen_f_len 3 (pb_response_pack r)); lia). pose proof L1 as L3.
  assert (OK : pb_response_ok r).
  { unfold response_create in H. destruct oc as [c|].
    - destruct (chain_build_proto c false) as [m|] eqn:B; [|discriminate]. apply Some_inj in H. subst r.
      unfold pb_response_pack in L1. cbn [pr_chain pr_pubkey pr_data option_map f_len_opt] in *. rewrite !blen_app in L1.
      pose proof (blen_f_len 4 (pb_chain_pack m)). pose proof (blen_f_len 2 pub). pose proof (blen_f_len 3 data).
      split; [|split]; cbn [pr_chain pr_pubkey pr_data]; intros x E; apply Some_inj in E; subst x; [split; [apply (chain_pack_ok c false m B); lia|]| |]; unfold library_limit, two32 in *; lia.
    - apply Some_inj in H. subst r.
      unfold pb_response_pack in L1. cbn [pr_chain pr_pubkey pr_data option_map f_len_opt] in *. rewrite !blen_app in L1.
      pose proof (blen_f_len 2 pub). pose proof (blen_f_len 3 data).
      split; [|split]; cbn [pr_chain pr_pubkey pr_data]; intros x E; [discriminate| |]; apply Some_inj in E; subst x; unfold library_limit, two32 in *; lia. }
  unfold pb_handshake_unpack. rewrite <- (app_nil_r (f_len 3 _)). rewrite scan_len; [|lia|unfold library_limit, two32 in *; lia]. rewrite scan_nil.
  cbv [get_oneof N.eqb Pos.eqb]. rewrite (pb_response_roundtrip _ OK). reflexivity.
Qed.
Lemma root_key_roundtrip k : rk_cipher k = AES256_GCM -> blen (rk_secret k) = 32 -> rk_send k < two32 -> rk_recv k < two32 ->
  pb_response_data_unpack (pb_response_data_pack (Some (root_key_to_proto k))) = Some (Some (root_key_to_proto k)) /\
  root_key_from_proto (root_key_to_proto k) = Some k.
Proof.
  destruct k as [c s x y]. cbn [rk_cipher rk_secret rk_send rk_recv]. intros -> L X Y. split.
  - unfold pb_response_data_unpack, pb_response_data_pack. cbn [option_map f_len_opt].
    assert (R : pb_root_key_unpack (pb_root_key_pack (root_key_to_proto {| rk_cipher := AES256_GCM; rk_secret := s; rk_send := x; rk_recv := y |})) =
      Some (root_key_to_proto {| rk_cipher := AES256_GCM; rk_secret := s; rk_send := x; rk_recv := y |})).
    { unfold pb_root_key_unpack, pb_root_key_pack, root_key_to_proto. cbn [prk_secret prk_cipher prk_send prk_recv rk_secret rk_cipher rk_send rk_recv f_len_opt f_var_opt].
      rewrite <- (app_nil_r (f_var 4 _)), <- ?app_assoc. rewrite scan_len by (unfold two32; lia). 
      rewrite !scan_var; try lia; try (unfold two32, two64 in *; lia). 2:{ vm_compute. reflexivity. }
      rewrite scan_nil. fields. unfold u32. rewrite (N.mod_small x) by exact X. rewrite (N.mod_small y) by exact Y.
      replace (cipher_id AES256_GCM mod two32) with (cipher_id AES256_GCM) by reflexivity. reflexivity. }
    assert (S : blen (pb_root_key_pack (root_key_to_proto {| rk_cipher := AES256_GCM; rk_secret := s; rk_send := x; rk_recv := y |})) < two32).
    { unfold pb_root_key_pack, root_key_to_proto. cbn [prk_secret prk_cipher prk_send prk_recv rk_secret rk_cipher rk_send rk_recv f_len_opt f_var_opt]. rewrite !blen_app.
      pose proof (f_len_size 1 s). pose proof (f_var_size 2 (cipher_id AES256_GCM)). pose proof (f_var_size 3 x). pose proof (f_var_size 4 y). unfold two32. lia. }
    rewrite <- (app_nil_r (f_len 1 _)). rewrite scan_len by (lia || exact S). rewrite scan_nil. fields. rewrite R. reflexivity.
  - unfold root_key_from_proto, root_key_to_proto. cbn [prk_secret prk_cipher prk_send prk_recv rk_secret rk_cipher rk_send rk_recv].
    rewrite create_limit by (unfold within_limit, library_limit; lia). replace (cipher_find (cipher_id AES256_GCM mod 256)) with (Some AES256_GCM) by reflexivity.
    unfold root_key_create. rewrite L. reflexivity.
Qed.

(* --- a packet of the handshake survives the wire *)
Lemma packet_travels P m pkt c s q s' w q' : ec_ok P -> gen_ok P -> sign_ok P -> engine_key P (id_key (ch_node c)) ->
  pb_handshake_pack m <> [] ->
  (blen (pb_handshake_pack m) <= library_limit -> pb_handshake_unpack (pb_handshake_pack m) = Some m) ->
  handshake_to_packet m = Some pkt -> tpacket_sign P pkt c s = (Val (true, q), s') ->
  tpacket_serialize q = Some w -> tpacket_create_from_buffer (Some w) = Val q' ->
  handshake_from_packet q' = Some m /\ tp_network q = Some w /\ tp_network q' = Some w /\ within_limit (blen w).
Proof.
  intros EO GO SO EK NE RT T S W R. unfold handshake_to_packet in T. destruct (pack_buffer (pb_handshake_pack m)) as [b|] eqn:PB; [|discriminate].
  apply pack_buffer_Some in PB. destruct PB as [-> L]. cbn [tpacket_create] in T. apply Some_inj in T.
  destruct (signed_verifies P c s pkt q s' EO GO SO EK) as (b & B1 & B2 & q2 & B3 & B4 & B5 & _); [subst pkt; repeat split|subst pkt; exact NE|subst pkt; reflexivity|exact S|].
  rewrite W in B1. apply Some_inj in B1. subst b. rewrite R in B3. apply Val_inj in B3. subst q2.
  apply packet_parse_inv in R. destruct R as (_ & _ & N2 & L2). split; [|auto].
  unfold handshake_from_packet. rewrite B4, B5. subst pkt. cbn [tp_meta tp_body tm_body meta_handshake]. apply RT, L.
Qed.

(* --- both ends hash the same identities *)
Lemma build_public x : identity_build_proto (public_identity x) false = identity_build_proto x false.
Proof. reflexivity. Qed.
Lemma serialize_public c : chain_serialize (Some (public_chain c)) = chain_serialize (Some c).
Proof. reflexivity. Qed.
Lemma serialize_same c d : same_identities c d -> chain_serialize (Some c) = chain_serialize (Some d).
Proof. intros [A B]. unfold chain_serialize, chain_serialize_with, chain_build_proto. rewrite A, B. reflexivity. Qed.
Lemma verify_same P p c : same_identities (snd (tpacket_verify P p c)) c.
Proof. destruct (verify_chain P p c) as [-> | ->]; [split; reflexivity|apply validate_same]. Qed.
Lemma sender_serialized P h p c c' parsed other m : sender_chain P h p c c' parsed -> knows (hs_remote h) other -> good_chain P other ->
  chain_build_proto other false = Some m -> (parsed = true -> chain_create_from_proto P (Some m) = Val c) ->
  chain_serialize (Some c') = chain_serialize (Some other).
Proof.
  intros (A & _ & ->) K G B X. rewrite (serialize_same _ _ (verify_same P p c)). destruct parsed.
  - specialize (X eq_refl). rewrite (chain_from_build P other m G B) in X. apply Val_inj in X. subst c. apply serialize_public.
  - rewrite A in K. cbn [knows] in K. rewrite <- serialize_public, K. apply serialize_public.
Qed.

(* --- the two shared secrets *)
Lemma rand_key_form P s k s' : ec_ok P -> gen_ok P -> ec_rand_key P P521 s = (Val k, s') ->
  exists pub pri, ek_pub k = x00 :: pub /\ ek_pri k = Some pri /\ ek_curve k = P521 /\ p_o2i P pub = Some pub /\ p_d2i P pri = Some (pub, pri) /\ pub <> [].
Proof.
  intros EO GO H. destruct (engine_key_form P k EO GO (made_random P k s s' H)) as (pub & A & B & C & D & E).
  assert (Q : exists pri, ek_pri k = Some pri).
  { unfold ec_rand_key in H. destruct (p_ec_gen P s) as [[pu pri]|]; [|discriminate]. destruct (ec_pri_key_to_buffer pri) as [q|]; [|discriminate].
    destruct (ec_pub_key_to_buffer P521 pu) as [p|]; [|discriminate]. cbn [ec_key_create lift] in H. apply pair_equal_spec in H. destruct H as [H _]. apply Val_inj in H. subst k. cbn. eauto. }
  destruct Q as [pri Q]. exists pub, pri. repeat split; auto. intros ->. destruct EO as (_ & _ & E3). destruct (E3 _ _ C) as [_ L]. unfold blen in L. cbn in L. lia.
Qed.
Lemma secrets_agree P k1 k2 s1 s1' s2 s2' : ec_ok P -> gen_ok P -> ecdh_ok P -> ec_rand_key P P521 s1 = (Val k1, s1') -> ec_rand_key P P521 s2 = (Val k2, s2') ->
  gen_shared_secret P (Some k1) (Some (public_key k2)) = gen_shared_secret P (Some k2) (Some (public_key k1)).
Proof.
  intros EO GO [DO _] H1 H2. destruct (rand_key_form P _ _ _ EO GO H1) as (p1 & q1 & A1 & B1 & _ & C1 & D1 & N1).
  destruct (rand_key_form P _ _ _ EO GO H2) as (p2 & q2 & A2 & B2 & _ & C2 & D2 & N2).
  unfold gen_shared_secret, public_key. cbn [ek_pub ek_pri]. rewrite B1, B2, D1, D2, A1, A2.
  assert (E : forall p, p <> [] -> p_o2i P p = Some p -> evp_public_key_from_buffer P (x00 :: p) = Some p).
  { intros p NE O. destruct p as [|c p]; [congruence|]. unfold evp_public_key_from_buffer. exact O. }
  rewrite (E p1 N1 C1), (E p2 N2 C2). rewrite (DO p1 q1 p2 q2) by (eexists; eassumption). reflexivity.
Qed.
Lemma gen_key_agree P k1 k2 s1 s1' s2 s2' c kdf : ec_ok P -> gen_ok P -> ecdh_ok P -> ec_rand_key P P521 s1 = (Val k1, s1') -> ec_rand_key P P521 s2 = (Val k2, s2') ->
  ecdh_gen_cipher_key P {| ex_local := k1; ex_cipher := c |} (Some (public_key k2)) (Some kdf) =
  ecdh_gen_cipher_key P {| ex_local := k2; ex_cipher := c |} (Some (public_key k1)) (Some kdf).
Proof.
  intros EO GO DO H1 H2. unfold ecdh_gen_cipher_key. cbn [ex_local ex_cipher]. rewrite (secrets_agree P k1 k2 _ _ _ _ EO GO DO H1 H2). reflexivity.
Qed.

(* --- the derived keys *)
Lemma stream_key_of_root P k salt id d sk : rk_cipher k = AES256_GCM -> root_key_to_stream_key P k salt id d = Val sk ->
  exists out, p_hkdf P SHA512 salt (rk_secret k) id 64 = Some out /\ blen out = 64 /\
    sk = direction_key out (match d with ENCODE => rk_send k | DECODE => rk_recv k end).
Proof.
  intros C H. unfold root_key_to_stream_key in H. rewrite C in H. apply rbind_Val in H. destruct H as (raw & Hr & H). apply perform_kdf_meta_Val in Hr. destruct Hr as [_ Hr].
  change (key_len AES256_GCM) with 32 in H. destruct (N.eqb_spec (blen (kr_hash raw)) (32 * 2)) as [L|]; [|discriminate]. cbn [rbind] in H.
  unfold kdf_algo_hash in Hr. cbn [km_algo ka_kind KDF_HKDF_SHA512] in Hr. apply lift_Val' in Hr. unfold hkdf_generate_hash in Hr.
  cbn [km_algo ka_id km_salt km_info ka_output_size KDF_HKDF_SHA512] in Hr. change (8 =? 6) with false in Hr. change (8 =? 7) with false in Hr. change (8 =? 8) with true in Hr. cbv iota in Hr.
  unfold hkdf, hkdf_internal in Hr. cbn [obytes] in Hr. destruct (1024 <? blen id); [discriminate|]. destruct (INT_MAX <? blen salt); [discriminate|].
  destruct (INT_MAX <? blen (rk_secret k)); [discriminate|]. destruct (negb _); [discriminate|].
  exists (kr_hash raw). split; [exact Hr|]. split; [rewrite L; reflexivity|].
  apply rbind_Val in H. destruct H as (a & Ha & H). apply lift_Val' in Ha. apply rbind_Val in H. destruct H as (ck & Hck & H). apply lift_Val' in Hck.
  apply rbind_Val in H. destruct H as (b & Hb & H). apply lift_Val' in Hb. apply lift_Val' in H.
  apply section_inv in Ha. destruct Ha as (x & z & E1 & X & La & _ & _ & _ & Ez). apply section_inv in Hb. destruct Hb as (x2 & z2 & E2 & X2 & Lb & _ & _ & Ex2 & Ez2).
  unfold cipher_key_create in Hck. destruct (negb _); [discriminate|]. apply Some_inj in Hck. subst ck.
  unfold stream_key_create, stream_key_create_user_data in H. destruct (orb _ _); [discriminate|]. apply Some_inj in H. subst sk. unfold direction_key.
  assert (x = []) by (destruct x; [reflexivity|rewrite blen_cons in X; lia]). subst x. cbn [app] in E1.
  assert (Ea : a = firstn 32 (kr_hash raw)).
  { rewrite E1. replace 32%nat with (length a + 0)%nat by (unfold blen in La; lia). rewrite firstn_app_2. cbn [firstn]. symmetry. apply app_nil_r. }
  assert (Eb : b = skipn 32 (kr_hash raw)).
  { rewrite E2. rewrite skipn_app. replace (32 - length x2)%nat with 0%nat by (unfold blen in X2; lia). rewrite (skipn_all2 x2) by (unfold blen in X2; lia). cbn [skipn app].
    assert (Z : z2 = []). { apply (f_equal blen) in E2. rewrite !blen_app, L in E2. destruct z2; [reflexivity|rewrite blen_cons in E2; lia]. } rewrite Z, app_nil_r. reflexivity. }
  rewrite Ea, Eb. reflexivity.
Qed.

Lemma process_settled P h pkt s h' q a s' g p : handshake_process P h (Some pkt) s = (Val (h', q, a), s') -> settle h' q = (g, p) -> hs_status g <> H_FAILED ->
  exists h1 s1, process_packet P h pkt s = (Val (h1, p), s1) /\ hs_status h1 <> H_FAILED /\
    hs_root g = hs_root h1 /\ hs_packet0 g = hs_packet0 h1 /\ hs_packet1 g = hs_packet1 h1 /\ hs_initiator g = hs_initiator h1.
Proof.
  intros H S NF. unfold handshake_process in H.
  assert (Bad : forall x y, mret (set_hstatus H_FAILED h, @None tpacket, @None chain) x = (Val (h', q, a), y) -> False).
  { intros x y E. apply mret_Val in E. destruct E as [E _]. apply pair_equal_spec in E. destruct E as [E _]. apply pair_equal_spec in E. destruct E as [-> ->].
    unfold settle in S. cbn [hs_status set_hstatus] in S. apply pair_equal_spec in S. destruct S as [<- _]. apply NF. reflexivity. }
  destruct (negb _); [destruct (Bad _ _ H)|]. destruct (hs_status h) eqn:St; try destruct (Bad _ _ H).
  all: apply mbind_Val in H; destruct H as ([h1 p1] & s1 & H1 & H); exists h1, s1;
    (destruct (hs_status h1) eqn:St1; apply mret_Val in H; destruct H as [H _]; apply pair_equal_spec in H; destruct H as [H _]; apply pair_equal_spec in H; destruct H as [-> ->];
     unfold settle in S; cbn [hs_status set_pending] in S; rewrite St1 in S; unfold handshake_verify_identity in S; cbn [hs_status set_pending] in S; rewrite ?St1 in S;
     apply pair_equal_spec in S; destruct S as [<- <-]; cbn [hs_pending set_pending hs_root set_hstatus hs_packet0 hs_packet1 hs_initiator]; try congruence; repeat split; try exact H1; discriminate).
Qed.
Lemma finalize_not_failed P h h' k : handshake_finalize P h = Val (h', Some k) -> hs_status h <> H_FAILED.
Proof. intros H F. unfold handshake_finalize in H. rewrite F in H. destruct (hs_root h); discriminate. Qed.
Lemma finalize_keys P h h' k r : handshake_finalize P h = Val (h', Some k) -> hs_root h = Some r ->
  exists transcript hash snd rcv, buffer_concat (hs_packet0 h) (hs_packet1 h) = Some transcript /\ sha2 P (Some transcript) None SHA512 = Some hash /\
    root_key_to_stream_key P r hash str_sender ENCODE = Val snd /\ root_key_to_stream_key P r hash str_receiver DECODE = Val rcv /\
    k = if hs_initiator h then {| hr_local := snd; hr_remote := rcv |} else {| hr_local := rcv; hr_remote := snd |}.
Proof.
  unfold handshake_finalize. intros H R. rewrite R in H. destruct (hs_status h); try discriminate. destruct (buffer_concat _ _) as [t|]; [|discriminate].
  destruct (sha2 P (Some t) None SHA512) as [hs|] eqn:E; [|discriminate]. apply rbind_Val in H. destruct H as (a & Ha & H). apply rbind_Val in H. destruct H as (b & Hb & H).
  destruct a as [a|]; [|discriminate]. destruct b as [b|]; [|discriminate]. apply Val_inj in H. apply pair_equal_spec in H. destruct H as [_ H]. apply Some_inj in H.
  unfold rtry in Ha, Hb. destruct (root_key_to_stream_key P r hs str_sender ENCODE) as [a'| |] eqn:E1; try discriminate. apply Val_inj in Ha. apply Some_inj in Ha. subst a'.
  destruct (root_key_to_stream_key P r hs str_receiver DECODE) as [b'| |] eqn:E2; try discriminate. apply Val_inj in Hb. apply Some_inj in Hb. subst b'.
  exists t, hs, a, b. auto.
Qed.
Lemma random_root_form P evo s k s' : rand_ok P -> root_key_create_random P AES256_GCM evo evo s = (Val k, s') ->
  rk_cipher k = AES256_GCM /\ blen (rk_secret k) = 32 /\ rk_send k = evo /\ rk_recv k = evo /\ p_rand P s 32 = Some (rk_secret k).
Proof.
  intros RO H. unfold root_key_create_random in H. apply mbind_Val in H. destruct H as (b & s1 & Hb & H). apply crypto_random_Val in Hb. destruct Hb as [Hb _].
  apply mlift_Val in H. destruct H as [H _]. unfold root_key_create in H. destruct (negb _); [discriminate|]. apply Some_inj in H. subst k. cbn.
  pose proof (RO _ _ _ Hb) as L. auto.
Qed.
Lemma response_fields pub data oc r : response_create pub data oc = Some r ->
  pr_pubkey r = Some pub /\ pr_data r = Some data /\ pr_chain r = match oc with Some c => chain_build_proto c false | None => None end.
Proof.
  unfold response_create. destruct oc as [c|]; [destruct (chain_build_proto c false) eqn:B; [|discriminate]|]; intros H; apply Some_inj in H; subst r; cbn; auto.
Qed.
Lemma response_not_empty r : pb_handshake_pack (PResponse r) <> [].
Proof. apply f_len_nonempty. Qed.
Lemma seed_not_empty r : pb_handshake_pack (PSeed r) <> [].
Proof. apply f_len_nonempty. Qed.
Lemma record_item_ok old w : within_limit (blen w) -> record_item old (Some w) = Some w.
Proof. intros L. unfold record_item. rewrite (copy_limit _ L). reflexivity. Qed.

Theorem handshake_agreement P a b ra rb ea eb h0 g0 w1 w2 ki kr :
  ec_ok P -> gen_ok P -> ecdh_ok P -> sign_ok P -> ctr_ok P -> aead_ok P -> rand_ok P ->
  good_chain P a -> good_chain P b -> engine_key P (id_key (ch_node a)) -> engine_key P (id_key (ch_node b)) ->
  handshake_create (Some a) ra ea = Some h0 -> handshake_create (Some b) rb eb = Some g0 -> eb < 2 ^ 32 ->
  knows ra b -> knows rb a -> handshake_run P h0 g0 w1 w2 ki kr ->
  exists n secret x y, p_rand P n 32 = Some secret /\
    p_hkdf P SHA512 (p_sha P SHA512 (w1 ++ w2)) secret str_sender 64 = Some x /\
    p_hkdf P SHA512 (p_sha P SHA512 (w1 ++ w2)) secret str_receiver 64 = Some y /\
    hr_local ki = direction_key x eb /\ hr_remote ki = direction_key y eb /\
    hr_local kr = direction_key y eb /\ hr_remote kr = direction_key x eb.
Proof.
  intros EO GO DO SO CO AO RO GA GB EA EB CA CB Le KA KB R.
  destruct R as (s1 & s2 & s3 & h1 & p1 & p1' & g1 & q1 & a1 & g2 & p2 & p2' & h2 & q2 & a2 & h3 & q3 & he & ge & H1 & W1 & R1 & G1 & S1 & W2 & R2 & H2 & S2 & F1 & F2).
  (* the start *)
  destruct (handshake_start P h0 s1) as [r1 t1] eqn:Hst. cbn [fst] in H1. subst r1.
  apply start_Val in Hst. destruct Hst as [[_ X]|(_ & k & seed & pkt & q & u1 & u2 & Hk & Hseed & Hpkt & Hsg & E & ->)]; [discriminate|]. apply Some_inj in E. subst q.
  unfold handshake_create in CA, CB. destruct (ea =? 0); [discriminate|]. destruct (eb =? 0); [discriminate|]. apply Some_inj in CA, CB. subst h0 g0.
  cbn [hs_local hs_remote] in *.
  destruct (packet_travels P _ _ _ _ _ _ _ _ EO GO SO EA (seed_not_empty seed) (seed_roundtrip _ _ _ _ Hseed) Hpkt Hsg W1 R1) as (Fp1 & N1 & N1' & L1).
  unfold seed_create in Hseed. destruct (chain_build_proto a false) as [ma|] eqn:Ba; [|discriminate]. apply Some_inj in Hseed. subst seed.
  (* the responder *)
  destruct (handshake_process P _ (Some p1') s2) as [r2 t2] eqn:Hpr in G1. cbn [fst] in G1. subst r2.
  destruct (process_settled _ _ _ _ _ _ _ _ _ _ Hpr S1 (finalize_not_failed _ _ _ _ F2)) as (g1' & t3 & Pp & NF & Gr & Gp0 & Gp1 & Gi).
  unfold process_packet in Pp. cbn [hs_status] in Pp. apply process_initial_Val in Pp. destruct Pp as [[X _]|Pp]; [congruence|].
  destruct Pp as (sd & pub & required & c & c' & parsed & eph & ctx & rk & ser & kdf & r & rb' & response & qq & qq' & v1 & v2 & v3 & v4 & v5 & v6 & v7 &
    Fd & Epub & Ereq & SC & PP & Heph & Hctx & Hrk & Hser & Pp). cbv zeta in Pp. destruct Pp as (Hkdf & Henc & Hrb & Hresp & Hqq & Hsg2 & E & Eg1).
  apply Some_inj in E. subst qq'. rewrite Fp1 in Fd. apply Some_inj in Fd. injection Fd as <-. cbn [ps_pubkey ps_required ps_chain] in *. apply Some_inj in Epub, Ereq. subst pub.
  pose proof (made_random P k _ _ Hk) as EKk. pose proof (engine_key_importable P k EO GO EKk) as IMk.
  assert (Lk : within_limit (blen (ek_pub k))).
  { clear - Hk. unfold ec_rand_key in Hk. destruct (p_ec_gen P s1) as [[pu pri]|]; [|discriminate]. destruct (ec_pri_key_to_buffer pri) as [x|]; [|discriminate].
    destruct (ec_pub_key_to_buffer P521 pu) as [y|] eqn:Y; [|discriminate]. apply pub_buffer_within in Y. cbn [ec_key_create lift] in Hk. apply pair_equal_spec in Hk. destruct Hk as [Hk _]. apply Val_inj in Hk. subst k. exact Y. }
  rewrite (create_limit _ Lk) in Heph. unfold importable in IMk. rewrite IMk in Heph. apply Some_inj in Heph. subst eph.
  assert (Ck : ek_curve (public_key k) = P521) by (destruct (ek_curve (public_key k)); reflexivity). rewrite Ck in Hctx. clear Ck.
  unfold ecdh_ctx_create in Hctx. apply mbind_Val in Hctx. destruct Hctx as (k2 & t4 & Hk2 & Hctx). apply mlift_Val in Hctx. destruct Hctx as [Hctx _].
  cbn [ecdh_ctx_create_key] in Hctx. apply Some_inj in Hctx. subst ctx. cbn [ex_local] in *.
  destruct (random_root_form _ _ _ _ _ RO Hrk) as (Rc & Rs & Rsend & Rrecv & Rrand). cbn [hs_evo hs_local] in *.
  (* back at the initiator *)
  destruct (packet_travels P _ _ _ _ _ _ _ _ EO GO SO EB (response_not_empty response) (response_roundtrip _ _ _ _ Hresp) Hqq Hsg2 W2 R2) as (Fp2 & N2 & N2' & L2).
  destruct (handshake_process P _ (Some p2') s3) as [r3 t5] eqn:Hpr2 in H2. cbn [fst] in H2. subst r3.
  destruct (process_settled _ _ _ _ _ _ _ _ _ _ Hpr2 S2 (finalize_not_failed _ _ _ _ F1)) as (h2' & t6 & Pp & NF2 & Hr & Hp0 & Hp1 & Hi).
  unfold process_packet in Pp. cbn [hs_status record_packet set_ephemeral set_hstatus set_initiator] in Pp. apply process_response_Val in Pp. destruct Pp as [[X _]|[_ Pp]]; [congruence|].
  destruct Pp as (r' & enc & pub & obj & lk & rem & d & d' & parsed2 & e & kdf2 & buf & m & rk2 & Fd & Eenc & Epub & Hobj & Hlk & Hrem & SC2 & PP2 & Ee & Pp). cbv zeta in Pp.
  destruct Pp as (Hkdf2 & Hdec & Hunp & Hroot & Eh2). rewrite Fp2 in Fd. apply Some_inj in Fd. injection Fd as <-.
  destruct (response_fields _ _ _ _ Hresp) as (Rp & Rd & Rch). rewrite Rp in Epub. rewrite Rd in Eenc. apply Some_inj in Epub, Eenc. subst pub enc.
  cbn [hs_ephemeral record_packet set_ephemeral] in Ee, Hlk. apply Some_inj in Ee. subst e. apply create_same_key in Hlk. subst lk.
  pose proof (made_random P k2 _ _ Hk2) as EKk2. pose proof (engine_key_importable P k2 EO GO EKk2) as IMk2.
  destruct (buffer_create (ek_pub k2)) as [xx|] eqn:Bx in Hrem; [|discriminate]. apply buffer_create_Some in Bx. destruct Bx as [-> _].
  unfold importable in IMk2. rewrite IMk2 in Hrem. apply Some_inj in Hrem. subst rem.
  (* the same key derivation parameters *)
  assert (Sa : chain_serialize (Some c') = chain_serialize (Some a)).
  { eapply sender_serialized; [exact SC|exact KB|exact GA|exact Ba|]. intros E. destruct (PP E) as (m' & E1 & E2). apply Some_inj in E1. subst m'. exact E2. }
  assert (Sb : chain_serialize (Some d') = chain_serialize (Some b)).
  { destruct parsed2.
    - destruct (PP2 eq_refl) as (m' & E1 & E2). rewrite Rch in E1. destruct required; [|discriminate]. eapply sender_serialized; [exact SC2|exact KA|exact GB|exact E1|]. intros _. exact E2.
    - destruct SC2 as (A2 & _ & ->). cbn [hs_remote record_packet set_ephemeral set_hstatus set_initiator] in A2. rewrite (serialize_same _ _ (verify_same P p2' d)). rewrite A2 in KA. cbn [knows] in KA.
      rewrite <- serialize_public, KA. apply serialize_public. }
  assert (Ekdf : kdf2 = kdf).
  { revert Hkdf Hkdf2. unfold handshake_kdf_meta. destruct parsed, parsed2; cbn [hs_local hs_remote hs_initiator set_root set_remote record_packet set_ephemeral set_hstatus set_initiator ek_pub public_key]; rewrite Sa, Sb; destruct (chain_serialize (Some b)) as [lb|]; try discriminate; destruct (chain_serialize (Some a)) as [la|]; try discriminate; intros A1 A2; congruence. }
  subst kdf2.
  (* the root key arrives *)
  destruct (root_key_roundtrip rk Rc Rs) as [RT1 RT2]; [rewrite Rsend; exact Le|rewrite Rrecv; exact Le|].
  apply pack_buffer_Some in Hser. destruct Hser as [Eser _].
  assert (NEser : ser <> []) by (rewrite Eser; apply f_len_nonempty).
  unfold ecdh_cipher in Henc. apply mbind_Val in Henc. destruct Henc as (key & t7 & Hkey & Henc). apply mres_Val in Hkey. destruct Hkey as [Hkey ->].
  assert (Ec : cr_cipher r = AES256_GCM).
  { pose proof (encrypt_Val P _ _ _ _ _ _ _ Henc) as (_ & _ & _ & _ & E & _). rewrite E. unfold ecdh_gen_cipher_key in Hkey. destruct (negb _); [discriminate|].
    cbv zeta in Hkey. apply rbind_Val in Hkey. destruct Hkey as (x1 & _ & Hkey). apply rbind_Val in Hkey. destruct Hkey as (x2 & _ & Hkey). apply rbind_Val in Hkey. destruct Hkey as (x3 & _ & Hkey).
    apply lift_Val' in Hkey. cbn [ex_cipher cipher_key_create] in Hkey. destruct (negb _); [discriminate|]. apply Some_inj in Hkey. subst key. reflexivity. }
  pose proof (encrypt_good P _ _ _ _ _ _ _ CO AO NEser Henc) as [Gr' _].
  assert (Eobj : obj = r).
  { apply rbind_Val in Hobj. destruct Hobj as (x & Hx & Hobj). apply lift_Val' in Hx. apply buffer_create_Some in Hx. destruct Hx as [-> Lx]. apply size_ok_limit in Lx.
    destruct (result_parse_inv _ _ Hobj) as (Go & Eo & _). apply Some_inj in Eo.
    assert (Es : rb' = result_wire r).
    { destruct (N.le_gt_cases (blen (result_wire r)) library_limit) as [LL|LL].
      - rewrite (result_serialize_ok r Gr') in Hrb; [congruence|]. split; [|exact LL]. rewrite result_wire_eq by exact Gr'. rewrite blen_cons. lia.
      - rewrite (result_too_big r LL Gr') in Hrb. discriminate. }
    rewrite Es in *. rewrite (result_parse_ok r Gr' Lx) in Hobj. apply Val_inj in Hobj. congruence. }
  subst obj. unfold ecdh_decipher in Hdec. rewrite Ec in Hdec. cbn [ex_cipher] in Hdec. rewrite N.eqb_refl in Hdec. cbn [negb] in Hdec.
  rewrite (gen_key_agree P k k2 _ _ _ _ AES256_GCM kdf EO GO DO Hk Hk2), Hkey in Hdec. cbn [rbind] in Hdec.
  rewrite (decrypt_encrypt P ser None key None _ r _ false CO AO NEser ltac:(discriminate) Henc) in Hdec. apply Val_inj in Hdec. subst buf.
  rewrite Eser, RT1 in Hunp. apply Some_inj in Hunp. apply Some_inj in Hunp. subst m. rewrite RT2 in Hroot. apply Some_inj in Hroot. subst rk2.
  (* both hash the same transcript *)
  assert (Root1 : hs_root h3 = Some rk) by (rewrite Hr, Eh2; destruct parsed2; reflexivity).
  assert (Root2 : hs_root g2 = Some rk) by (rewrite Gr, Eg1; destruct parsed; reflexivity).
  pose proof (record_item_ok None w1 L1) as RI1. pose proof (record_item_ok None w2 L2) as RI2.
  assert (P01 : hs_packet0 h3 = Some w1) by (rewrite Hp0, Eh2, N1; destruct parsed2; exact RI1).
  assert (P11 : hs_packet1 h3 = Some w2) by (rewrite Hp1, Eh2, N2'; destruct parsed2; exact RI2).
  assert (P02 : hs_packet0 g2 = Some w1) by (rewrite Gp0, Eg1, N1'; destruct parsed; exact RI1).
  assert (P12 : hs_packet1 g2 = Some w2) by (rewrite Gp1, Eg1, N2; destruct parsed; exact RI2).
  assert (I1 : hs_initiator h3 = true) by (rewrite Hi, Eh2; destruct parsed2; reflexivity).
  assert (I2 : hs_initiator g2 = false) by (rewrite Gi, Eg1; destruct parsed; reflexivity).
  destruct (finalize_keys _ _ _ _ _ F1 Root1) as (tr & hash & snd1 & rcv1 & T1 & Hh1 & K1 & K2 & ->).
  destruct (finalize_keys _ _ _ _ _ F2 Root2) as (tr' & hash' & snd2 & rcv2 & T2 & Hh2 & K3 & K4 & ->).
  rewrite P01, P11 in T1. rewrite P02, P12 in T2. rewrite T1 in T2. apply Some_inj in T2. subst tr'. rewrite Hh1 in Hh2. apply Some_inj in Hh2. subst hash'.
  rewrite K1 in K3. rewrite K2 in K4. apply Val_inj in K3, K4. subst snd2 rcv2. rewrite I1, I2. cbn [hr_local hr_remote].
  assert (Et : tr = (w1 ++ w2)%list) by (cbn [buffer_concat] in T1; apply buffer_create_Some in T1; apply T1).
  assert (Eh : hash = p_sha P SHA512 (w1 ++ w2)) by (clear - Hh1 Et; subst tr; cbn [sha2 obytes] in Hh1; apply Some_inj in Hh1; rewrite app_nil_r in Hh1; symmetry; exact Hh1).
  destruct (stream_key_of_root _ _ _ _ _ _ Rc K1) as (x & X1 & _ & ->). destruct (stream_key_of_root _ _ _ _ _ _ Rc K2) as (y & Y1 & _ & ->).
  rewrite Rsend, Rrecv. exists v2, (rk_secret rk), x, y. rewrite <- Eh. auto 10.
Qed.
