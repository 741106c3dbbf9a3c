(* Copies are equal to the original. *)
From Verif.Base Require Import Bytes Monad.
From Verif.Model Require Import Buffer Cipher Ecdsa Kdf Prims Fingerprint Identity Node Stream TransportPacket EcdhCipher Handshake Transport Keys Payload Exchange Packet Ctx.
From Verif.Spec Require Import BufferSpec CodecSpec CopySpec.
From Verif.Proofs Require Import BytesFacts BufferFacts CodecFacts EngineFacts CacheFacts KeysFacts.
From Verif.Proofs Require StreamFacts TransportFacts.
From Coq Require Import ZifyBool ZifyNat ZifyN.
Ltac Zify.zify_post_hook ::= Z.div_mod_to_equations.
Local Open Scope N_scope.

Lemma real_copy b : real b -> buffer_copy (Some b) = Some b.
Proof. apply copy_limit. Qed.
Lemma small_real b n : blen b = n -> 0 < n -> n <= 1000 -> real b.
Proof. intros E A B. unfold real, within_limit, library_limit. rewrite E. lia. Qed.
Lemma opt_same {A} (copy : option A -> option A) (Q : A -> Prop) o : copy None = None -> (forall x, Q x -> copy (Some x) = Some x) -> if_set Q o -> copy o = o.
Proof. intros N C I. destruct o as [x|]; [|exact N]. apply C, I. reflexivity. Qed.
Lemma opt_real o : if_set real o -> buffer_copy o = o.
Proof. apply opt_same; [reflexivity|exact real_copy]. Qed.

Lemma cipher_result_made r : made_cipher_result r -> cipher_result_copy (Some r) = Some r.
Proof.
  intros [A B]. unfold cipher_result_copy. cbv zeta. destruct r as [c iv t g]. cbn [cr_cipher cr_iv cr_text cr_tag] in *.
  assert (T : match t with Some t => buffer_copy (Some t) | None => None end = t).
  { destruct t as [t|]; [|reflexivity]. apply real_copy, B. reflexivity. }
  rewrite T. destruct c.
  - destruct A as (L & q & -> & Lq). rewrite (real_copy iv), (real_copy q) by (eapply small_real; [eassumption|lia|lia]).
    unfold cipher_result_create. cbn [iv_len auth_tag_len is_authenticated andb]. rewrite L, Lq. reflexivity.
  - destruct A as (L & ->). rewrite (real_copy iv) by (eapply small_real; [eassumption|lia|lia]).
    unfold cipher_result_create. cbn [iv_len auth_tag_len is_authenticated andb]. rewrite L. reflexivity.
Qed.
Lemma cipher_key_made k : made_cipher_key k -> cipher_key_copy (Some k) = Some k.
Proof. intros L. apply key_copy_ok. unfold good_key, made_cipher_key, blen in *. lia. Qed.
Lemma ec_key_made k : made_ec_key k -> ec_key_copy (Some k) = Some k.
Proof.
  intros [A B]. unfold ec_key_copy. rewrite real_copy by exact A. destruct k as [c p q]. cbn [ek_pri ek_pub ek_curve] in *.
  destruct q as [q|]; [|reflexivity]. rewrite real_copy by (apply B; reflexivity). reflexivity.
Qed.
Lemma signature_made s : made_signature s -> ecdsa_result_copy (Some s) = Some s.
Proof. intros A. unfold ecdsa_result_copy. rewrite real_copy by exact A. destruct s; reflexivity. Qed.
Lemma copy_opt_same o : if_set real o -> copy_opt o = Some o.
Proof. intros A. destruct o as [b|]; [|reflexivity]. cbn [copy_opt]. rewrite real_copy by (apply A; reflexivity). reflexivity. Qed.
Lemma kdf_meta_made m : made_kdf_meta m -> kdf_meta_copy (Some m) = Some m.
Proof.
  intros (A & B & C). unfold kdf_meta_copy. rewrite (copy_opt_same _ A), (copy_opt_same _ B). unfold kdf_meta_create. cbv zeta.
  destruct m as [a s i]. cbn [km_algo km_salt km_info] in *. destruct (ka_kind a).
  - destruct C as (x & -> & ->). rewrite N.eqb_refl. reflexivity.
  - destruct C as (x & -> & ->). rewrite N.eqb_refl. reflexivity.
  - destruct s, i; try reflexivity. destruct C; congruence.
Qed.
Lemma kdf_result_made r : made_kdf_result r -> kdf_result_copy (Some r) = Some r.
Proof. intros [A B]. unfold kdf_result_copy. rewrite kdf_meta_made, real_copy by assumption. destruct r; reflexivity. Qed.
Lemma fingerprint_made f : made_fingerprint f -> fingerprint_copy (Some f) = Some f.
Proof. intros A. unfold fingerprint_copy. rewrite real_copy by exact A. destruct f; reflexivity. Qed.
Lemma ecdh_made x : made_ecdh_ctx x -> ecdh_ctx_copy (Some x) = Some x.
Proof. intros A. unfold ecdh_ctx_copy. rewrite ec_key_made by exact A. destruct x; reflexivity. Qed.
Lemma identity_made x : made_identity x -> identity_copy (Some x) = Some x.
Proof.
  intros (A & B & C & D). unfold identity_copy. rewrite real_copy, ec_key_made by assumption.
  rewrite (opt_same ecdsa_result_copy made_signature) by (try reflexivity; try exact signature_made; exact D).
  unfold identity_create. unfold MAX_IDENTIFIER_LEN. destruct (128 <=? blen (id_identifier x)) eqn:E; [lia|]. destruct x; reflexivity.
Qed.
Lemma chain_made c : made_chain c -> chain_copy (Some c) = Some c.
Proof.
  intros (A & B & C). unfold chain_copy. rewrite !identity_made by assumption. cbv zeta. rewrite opt_real by exact C. destruct c as [r n s v]. cbn [ch_root ch_node ch_status ch_cache].
  destruct v; reflexivity.
Qed.
Lemma keypair_made k : made_keypair k -> keypair_copy (Some k) = Some k.
Proof.
  intros (A & B). unfold keypair_copy. rewrite ec_key_made by exact A.
  rewrite (opt_same ecdsa_result_copy made_signature) by (try reflexivity; try exact signature_made; exact B). destruct k as [i e s]. cbn [kp_signature kp_identifier kp_key]. destruct s; reflexivity.
Qed.
Lemma node_made n : made_node n -> node_copy (Some n) = Some n.
Proof.
  intros (A & B & C & D). unfold node_copy. rewrite real_copy, chain_made by assumption.
  rewrite (opt_same keypair_copy made_keypair) by (try reflexivity; try exact keypair_made; exact C). rewrite opt_real by exact D.
  destruct n as [d c k s v]. cbn [nd_dev_id nd_chain nd_keypair nd_status nd_cache]. destruct k, v; reflexivity.
Qed.
Lemma nodes_made l : made_nodes l -> node_items_copy l = Some l.
Proof.
  induction 1 as [|o l H _ IH]; [reflexivity|]. cbn [node_items_copy]. rewrite IH. destruct o as [x|]; [|reflexivity].
  rewrite node_made by (apply H; reflexivity). reflexivity.
Qed.
Lemma storage_made k : made_storage_keys k -> storage_keys_copy (Some k) = Some k.
Proof. intros [A B]. unfold storage_keys_copy. rewrite !cipher_key_made by assumption. destruct k; reflexivity. Qed.
Lemma root_keys_made k : made_root_keys k -> root_keys_copy (Some k) = Some k.
Proof. intros (A & B & C). unfold root_keys_copy. rewrite ec_key_made, !cipher_key_made by assumption. destruct k; reflexivity. Qed.
Lemma dev_info_made i : made_dev_info i -> dev_info_copy (Some i) = Some i.
Proof.
  intros (A & (y & Y & B) & C & D). unfold dev_info_copy. rewrite Y, !real_copy by assumption. destruct i as [a b c d]. cbn [di_system_salt] in Y. subst b. reflexivity.
Qed.
Lemma packet_meta_made m : made_packet_meta m -> packet_meta_copy (Some m) = Some m.
Proof.
  intros [A B]. unfold packet_meta_copy. rewrite real_copy by exact A. unfold packet_meta_create. rewrite N.mod_small by exact B. destruct m; reflexivity.
Qed.
Lemma payload_made p : made_payload p -> payload_copy (Some p) = Some p.
Proof. intros [A B]. unfold payload_copy. rewrite packet_meta_made, real_copy by assumption. destruct p; reflexivity. Qed.
Lemma key_exchange_made x : made_key_exchange x -> key_exchange_copy (Some x) = Some x.
Proof. intros [A B]. unfold key_exchange_copy. rewrite cipher_result_made, real_copy by assumption. destruct x; reflexivity. Qed.
Lemma exchange_items_made l : Forall (if_set made_key_exchange) l -> exchange_items_copy l = Some l.
Proof.
  induction 1 as [|o l H _ IH]; [reflexivity|]. cbn [exchange_items_copy]. rewrite IH. destruct o as [x|]; [|reflexivity].
  rewrite key_exchange_made by (apply H; reflexivity). reflexivity.
Qed.
Lemma exchange_set_made s : made_exchange_set s -> exchange_set_copy (Some s) = Some s.
Proof. intros [A B]. unfold exchange_set_copy. rewrite ec_key_made, exchange_items_made by assumption. destruct s; reflexivity. Qed.
Lemma packet_made p : made_packet p -> packet_copy (Some p) = Some p.
Proof. intros [A B]. unfold packet_copy. rewrite real_copy, signature_made by assumption. destruct p; reflexivity. Qed.
Lemma parse_result_made r : made_parse_result r -> parse_result_copy (Some r) = Some r.
Proof.
  intros (A & B & C). unfold parse_result_copy.
  rewrite (opt_same exchange_set_copy made_exchange_set), (opt_same key_exchange_copy made_key_exchange), (opt_same cipher_result_copy made_cipher_result)
    by first [reflexivity|exact exchange_set_made|exact key_exchange_made|exact cipher_result_made|assumption]. destruct r; reflexivity.
Qed.
Lemma decode_result_made r : made_decode_result r -> decode_result_copy (Some r) = Some r.
Proof.
  intros (A & B). unfold decode_result_copy.
  rewrite (opt_same payload_copy made_payload), (opt_same cipher_key_copy made_cipher_key) by first [reflexivity|exact payload_made|exact cipher_key_made|assumption].
  destruct r; reflexivity.
Qed.
Lemma encoder_result_made r : made_encoder_result r -> encoder_result_copy (Some r) = Some r.
Proof. intros [A B]. unfold encoder_result_copy. rewrite cipher_key_made, packet_made by assumption. destruct r; reflexivity. Qed.
Lemma stream_key_made k : made_stream_key k -> stream_key_copy (Some k) = Some k.
Proof.
  intros (A & B & C & D). unfold stream_key_copy. rewrite cipher_key_made, real_copy by assumption. rewrite opt_real by exact D.
  assert (E : (sk_ppe k <? PACKET_PER_EVO_MIN) || (PACKET_PER_EVO_MAX <? sk_ppe k) = false) by (unfold PACKET_PER_EVO_MIN, PACKET_PER_EVO_MAX; lia).
  destruct k as [c e p u]. cbn [sk_cipher sk_evo sk_ppe sk_user] in *. unfold stream_key_create_user_data. destruct u; rewrite E; reflexivity.
Qed.
Lemma stream_iv_made v : made_stream_iv v -> stream_iv_copy (Some v) = Some v.
Proof. intros A. unfold stream_iv_copy. rewrite real_copy by exact A. destruct v; reflexivity. Qed.
Lemma stream_ctx_made c : made_stream_ctx c -> stream_ctx_copy (Some c) = Some (one_owner c).
Proof.
  intros (A & B & C). unfold stream_ctx_copy. rewrite stream_key_made by exact A. cbv zeta.
  rewrite (opt_same stream_iv_copy made_stream_iv) by first [reflexivity|exact stream_iv_made|assumption]. unfold one_owner.
  destruct c as [k l d v r]. cbn [sc_key sc_last sc_dir sc_iv] in *. destruct v; [reflexivity|]. destruct d; [|reflexivity]. destruct (C eq_refl eq_refl).
Qed.
Lemma root_key_made k : made_root_key k -> root_key_copy (Some k) = Some k.
Proof.
  intros A. unfold root_key_copy. rewrite real_copy by (eapply small_real; [exact A|lia|lia]). unfold root_key_create. rewrite A, key_len_32. destruct k; reflexivity.
Qed.
Lemma tpacket_made p : made_tpacket p -> tpacket_copy (Some p) = Some (detached p).
Proof.
  intros [A B]. unfold tpacket_copy. rewrite real_copy by exact A. rewrite opt_real by exact B. unfold detached. destruct p as [n b m t]. cbn [tp_body tp_mac tp_meta].
  destruct m; reflexivity.
Qed.
Lemma handshake_res_made r : made_handshake_res r -> handshake_res_copy (Some r) = Some r.
Proof. intros [A B]. unfold handshake_res_copy. rewrite !stream_key_made by assumption. destruct r; reflexivity. Qed.
Definition with_pending (p : option tpacket) (h : handshake) : handshake :=
  {| hs_status := hs_status h; hs_initiator := hs_initiator h; hs_local := hs_local h; hs_remote := hs_remote h; hs_evo := hs_evo h;
     hs_packet0 := hs_packet0 h; hs_packet1 := hs_packet1 h; hs_ephemeral := hs_ephemeral h; hs_root := hs_root h; hs_pending := p |}.
Lemma handshake_made h : made_handshake h -> handshake_copy (Some h) = Some (with_pending (option_map detached (hs_pending h)) h).
Proof.
  intros (A & B & C & D & E & F & G & I). unfold handshake_copy. cbv zeta. rewrite chain_made by exact A.
  destruct h as [st ini l r ev p0 p1 ep k pe]. cbn [hs_status hs_initiator hs_local hs_remote hs_evo hs_packet0 hs_packet1 hs_ephemeral hs_root hs_pending with_pending] in *.
  assert (Q : forall (X : Type) (copy : option X -> option X) (Q : X -> Prop) o, (forall x, Q x -> copy (Some x) = Some x) -> if_set Q o ->
              match o with None => Some None | Some _ => match copy o with Some c => Some (Some c) | None => None end end = Some o).
  { intros X copy Q' o H S. destruct o as [x|]; [|reflexivity]. rewrite H by (apply S; reflexivity). reflexivity. }
  rewrite (Q _ chain_copy made_chain r chain_made B), (Q _ buffer_copy real p0 real_copy C), (Q _ buffer_copy real p1 real_copy D),
    (Q _ root_key_copy made_root_key k root_key_made E), (Q _ ec_key_copy made_ec_key ep ec_key_made G).
  apply N.eqb_neq in I. destruct pe as [pe|].
  - rewrite tpacket_made by (apply F; reflexivity). rewrite I. reflexivity.
  - rewrite I. reflexivity.
Qed.
Lemma transport_made c r : made_transport c -> tc_remote c = Some r ->
  transport_copy (Some c) = Some {| tc_local := tc_local c; tc_remote := Some r; tc_tx := option_map one_owner (tc_tx c); tc_rx := option_map one_owner (tc_rx c);
                                    tc_handshake := None; tc_status := tc_status c; tc_evo := tc_evo c; tc_err := E_NONE |}.
Proof.
  intros (A & B & C & D) R. unfold transport_copy. rewrite chain_made by exact A. rewrite R. rewrite chain_made by (apply B; exact R).
  destruct (tc_tx c) as [t|] eqn:T.
  - rewrite stream_ctx_made by (apply C; reflexivity). destruct (tc_rx c) as [x|]; [|reflexivity]. rewrite stream_ctx_made by (apply D; reflexivity). reflexivity.
  - destruct (tc_rx c) as [x|]; [|reflexivity]. rewrite stream_ctx_made by (apply D; reflexivity). reflexivity.
Qed.
Definition set_version (v : N) (c : ctx) : ctx := {| cx_dev := cx_dev c; cx_chain := cx_chain c; cx_storage := cx_storage c; cx_header_key := cx_header_key c; cx_version := v |}.
Lemma ctx_made P i c s x v : made_dev_info i -> made_chain c -> made_storage_keys s -> ctx_create P (Some i) (Some c) (Some s) = Some x ->
  ctx_copy P (Some (set_version v x)) = Val (set_version v x).
Proof.
  intros A B C H. pose proof H as H'. unfold ctx_create in H. destruct (gen_header_key P default_cipher c) as [hk|] eqn:K; [|discriminate].
  apply Some_inj in H. subst x. unfold ctx_copy, set_version. cbn [cx_dev cx_chain cx_storage cx_header_key cx_version].
  rewrite dev_info_made, chain_made, storage_made by assumption. rewrite H'. reflexivity.
Qed.
Lemma gen_result_made P i c s x v k rk : made_dev_info i -> made_chain c -> made_storage_keys s -> ctx_create P (Some i) (Some c) (Some s) = Some x ->
  made_cipher_key k -> made_root_keys rk ->
  let g := {| gr_ctx := set_version v x; gr_recovery_key := k; gr_root_keys := rk |} in gen_result_copy P (Some g) = Val g.
Proof.
  intros A B C H K R g. unfold gen_result_copy, g. cbn [gr_ctx gr_recovery_key gr_root_keys]. rewrite (ctx_made P i c s x v A B C H). cbn [rbind].
  rewrite cipher_key_made, root_keys_made by assumption. reflexivity.
Qed.

(* --- whatever the object *)
Ltac same1 :=
  match goal with
  | H : buffer_copy _ = Some _ |- _ => apply buffer_copy_Some in H; destruct H as [H _]
  | H : Some _ = Some _ |- _ => apply Some_inj in H
  end.
Lemma kdf_result_same : never_differs kdf_result_copy.
Proof.
  intros x y. unfold kdf_result_copy. destruct (kdf_meta_copy (Some (kr_meta x))) as [m|] eqn:M; [|discriminate]. apply kdf_meta_copy_Some in M. subst m.
  destruct (buffer_copy (Some (kr_hash x))) as [h|] eqn:H; [|discriminate]. repeat same1. subst h. intros E. apply Some_inj in E. subst y. destruct x; reflexivity.
Qed.
Lemma buffer_same : never_differs buffer_copy.
Proof. intros x y H. repeat same1. congruence. Qed.
Lemma fingerprint_same : never_differs fingerprint_copy.
Proof.
  intros x y. unfold fingerprint_copy. destruct (buffer_copy (Some (fp_data x))) as [h|] eqn:H; [|discriminate]. repeat same1. subst h. intros E. apply Some_inj in E. subst y. destruct x; reflexivity.
Qed.
Lemma ecdh_same : never_differs ecdh_ctx_copy.
Proof.
  intros x y. unfold ecdh_ctx_copy. destruct (ec_key_copy (Some (ex_local x))) as [h|] eqn:H; [|discriminate]. apply create_same_key in H. subst h. intros E. apply Some_inj in E. subst y. destruct x; reflexivity.
Qed.
Lemma keypair_same : never_differs keypair_copy.
Proof.
  intros x y. unfold keypair_copy. destruct (ec_key_copy (Some (kp_key x))) as [h|] eqn:H; [|discriminate]. apply create_same_key in H. subst h. destruct x as [i k s]. cbn [kp_signature kp_identifier kp_key].
  destruct s as [s|].
  - destruct (ecdsa_result_copy (Some s)) as [t|] eqn:T; [|discriminate]. apply sig_copy_same in T. subst t. intros E. apply Some_inj in E. exact (eq_sym E).
  - intros E. apply Some_inj in E. exact (eq_sym E).
Qed.
Lemma storage_same : never_differs storage_keys_copy.
Proof.
  intros x y. unfold storage_keys_copy. destruct (cipher_key_copy (Some (sk_local x))) as [l|] eqn:L; [|discriminate]. destruct (cipher_key_copy (Some (sk_remote x))) as [r|] eqn:R; [|discriminate].
  apply key_copy_same in L, R. subst l r. intros E. apply Some_inj in E. subst y. destruct x; reflexivity.
Qed.
Lemma packet_same : never_differs packet_copy.
Proof.
  intros x y. unfold packet_copy. destruct (buffer_copy (Some (pt_content x))) as [c|] eqn:C; [|discriminate]. destruct (ecdsa_result_copy (Some (pt_signature x))) as [s|] eqn:S; [|discriminate].
  apply sig_copy_same in S. repeat same1. subst c s. intros E. apply Some_inj in E. subst y. destruct x; reflexivity.
Qed.
Lemma encoder_same : never_differs encoder_result_copy.
Proof.
  intros x y. unfold encoder_result_copy. destruct (cipher_key_copy (Some (en_key x))) as [k|] eqn:K; [|discriminate]. destruct (packet_copy (Some (en_packet x))) as [p|] eqn:Q; [|discriminate].
  apply key_copy_same in K. apply packet_same in Q. subst k p. intros E. apply Some_inj in E. subst y. destruct x; reflexivity.
Qed.
Lemma handshake_res_same : never_differs handshake_res_copy.
Proof.
  intros x y. unfold handshake_res_copy. destruct (stream_key_copy (Some (hr_local x))) as [k|] eqn:K; [|discriminate]. destruct (stream_key_copy (Some (hr_remote x))) as [p|] eqn:Q; [|discriminate].
  apply TransportFacts.stream_key_copy_same in K, Q. subst k p. intros E. apply Some_inj in E. subst y. destruct x; reflexivity.
Qed.
Lemma root_key_same : never_differs root_key_copy.
Proof.
  intros x y. unfold root_key_copy. destruct (buffer_copy (Some (rk_secret x))) as [h|] eqn:H; [|discriminate]. repeat same1. subst h.
  unfold root_key_create. destruct (negb _); [discriminate|]. intros E. apply Some_inj in E. subst y. destruct x; reflexivity.
Qed.
