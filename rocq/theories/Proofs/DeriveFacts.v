(* From what the keys that wrap other keys are derived. *)
From Verif.Base Require Import Bytes Monad.
From Verif.Model Require Import Buffer Cipher Ecdsa Kdf Prims Engine Proto Identity Node Keys EcdhCipher Payload Exchange Packet Ctx.
From Verif.Spec Require Import BufferSpec CodecSpec EngineSpec IdentitySpec KeysSpec MessageSpec CtxSpec DeriveSpec.
From Verif.Proofs Require Import BytesFacts BufferFacts BufferProps CodecFacts ProtoFacts EngineFacts IdentityFacts CacheFacts IdentityProps KeysFacts MessageFacts PacketFacts CtxFacts.
From Coq Require Import ZifyBool ZifyNat ZifyN.
Local Open Scope N_scope.

Lemma or_none_obytes o : obytes o = or_none o.
Proof. destruct o; reflexivity. Qed.
Lemma hkdf_internal_Some P k salt info d n b r : hkdf_internal P (Some k) salt info d n b = Some r ->
  (if b then p_hkdf_expand P d k (or_none info) n else p_hkdf P d (or_none salt) k (or_none info) n) = Some r.
Proof.
  unfold hkdf_internal. rewrite !or_none_obytes. destruct (match info with Some _ => _ | None => _ end); [discriminate|].
  destruct (match salt with Some _ => _ | None => _ end); [discriminate|]. destruct (INT_MAX <? _); [discriminate|]. destruct (negb _); [discriminate|]. auto.
Qed.
Lemma hkdf_hash_agreed P a salt info secret key :
  hkdf_generate_hash P {| km_algo := a; km_salt := salt; km_info := info |} secret = Some key -> agreed P secret salt info (ka_output_size a) key (ka_id a).
Proof.
  unfold hkdf_generate_hash, hkdf, hkdf_expand. cbn [km_algo km_salt km_info]. intros H.
  destruct (N.eqb_spec (ka_id a) 6) as [->|]; [apply hkdf_internal_Some in H; constructor; exact H|].
  destruct (N.eqb_spec (ka_id a) 7) as [->|]; [apply hkdf_internal_Some in H; constructor; exact H|].
  destruct (N.eqb_spec (ka_id a) 8) as [->|]; [apply hkdf_internal_Some in H; constructor; exact H|].
  destruct (N.eqb_spec (ka_id a) 9) as [->|]; [apply hkdf_internal_Some in H; constructor; exact H|]. discriminate.
Qed.
Lemma gen_key_agreed P x r k ck : ecdh_gen_cipher_key P x (Some r) (Some k) = Val ck ->
  ck_cipher ck = ex_cipher x /\
  exists secret, gen_shared_secret P (Some (ex_local x)) (Some r) = Some secret /\
    agreed P secret (km_salt k) (km_info k) 32 (ck_data ck) (ka_id (km_algo k)).
Proof.
  intros H. split; [exact (gen_key_cipher P _ _ _ _ H)|]. unfold ecdh_gen_cipher_key in H.
  destruct (negb _) eqn:K; [discriminate|]. cbv zeta in H. apply rbind_Val in H. destruct H as (s & S & H). apply lift_Val' in S. exists s. split; [exact S|].
  apply rbind_Val in H. destruct H as (kr & R & H). apply rbind_Val in H. destruct H as (d & D & H). apply lift_Val' in D. apply lift_Val' in H.
  apply buffer_copy_Some in D. destruct D as [D _]. apply Some_inj in D. subst d.
  unfold cipher_key_create in H. destruct (_ =? _); [|discriminate]. apply Some_inj in H. subst ck. cbn [ck_data].
  unfold perform_kdf_meta in R. apply rbind_Val in R. destruct R as (h & Hh & R). apply rbind_Val in R. destruct R as (m & _ & R).
  apply lift_Val' in R. cbn [kdf_result_create] in R. apply Some_inj in R. subst kr. cbn [kr_hash].
  unfold kdf_algo_hash in Hh. cbn [km_algo with_output_size ka_kind] in Hh. destruct (ka_kind (km_algo k)); try discriminate K.
  apply lift_Val' in Hh. apply hkdf_hash_agreed in Hh. cbn [with_output_size ka_output_size ka_id] in Hh. destruct (ex_cipher x); exact Hh.
Qed.
Lemma concat_multi_3 a b c r : buffer_concat_multi [Some a; Some b; Some c] = Some r -> r = (a ++ b ++ c)%list.
Proof. intros H. apply concat_multi_Some in H. destruct H as [-> _]. cbn [map concat obytes]. rewrite app_nil_r. reflexivity. Qed.
Lemma kdf_meta_bound s r psk v m : exchange_kdf_meta (Some s) (Some r) psk v = Some m ->
  exists info, bound_to s r v info /\ km_info m = Some info /\ km_salt m = psk /\
    ((v = 2 \/ v = 3) /\ ka_id (km_algo m) = 6 \/ v = 4 /\ ka_id (km_algo m) = 8).
Proof.
  unfold exchange_kdf_meta. destruct (nd_keypair r) as [kp|]; [|discriminate].
  assert (C : forall a i, ka_kind a = KDF_HMAC_SHA2 -> match psk with Some l => match buffer_copy (Some l) with Some l0 => kdf_meta_create a (Some l0) (Some i) | None => None end | None => kdf_meta_create a (buffer_copy None) (Some i) end = Some m ->
    km_info m = Some i /\ km_salt m = psk /\ km_algo m = a).
  { intros a i K H. destruct psk as [p|].
    - destruct (buffer_copy (Some p)) as [q|] eqn:E; [|discriminate]. apply buffer_copy_Some in E. destruct E as [E _]. apply Some_inj in E. subst q.
      unfold kdf_meta_create in H. rewrite K in H. apply Some_inj in H. subst m. auto.
    - cbn [buffer_copy] in H. unfold kdf_meta_create in H. rewrite K in H. apply Some_inj in H. subst m. auto. }
  unfold exchange_kdf_info.
  destruct (N.eqb_spec v 2) as [->|N2].
  { cbn [orb]. destruct (buffer_copy (Some (nd_dev_id r))) as [i|] eqn:E; [|discriminate]. apply buffer_copy_Some in E. destruct E as [E _]. apply Some_inj in E. subst i. intros H. apply C in H; [|reflexivity].
    destruct H as (A & B & D). exists (nd_dev_id r). rewrite D. repeat split; auto. constructor. }
  destruct (N.eqb_spec v 3) as [->|N3].
  { cbn [orb]. destruct (buffer_concat_multi _) as [i|] eqn:E; [|discriminate]. apply concat_multi_3 in E. subst i. intros H. apply C in H; [|reflexivity].
    destruct H as (A & B & D). eexists. rewrite D. split; [constructor|]. split; [exact A|]. split; [exact B|]. auto. }
  destruct (N.eqb_spec v 4) as [->|N4]; cbn [orb]; [|intros; discriminate].
  destruct (buffer_concat_multi _) as [i|] eqn:E; [|discriminate]. apply concat_multi_3 in E. subst i. intros H. apply C in H; [|reflexivity].
  destruct H as (A & B & D). eexists. rewrite D. split; [constructor|]. split; [exact A|]. split; [exact B|]. auto.
Qed.
Lemma exchange_key_of P s r psk v m secret key : exchange_kdf_meta (Some s) (Some r) psk v = Some m ->
  agreed P secret (km_salt m) (km_info m) 32 key (ka_id (km_algo m)) -> exchange_key P secret psk s r v key.
Proof.
  intros M A. apply kdf_meta_bound in M. destruct M as (info & B & I & S & V). rewrite I, S in A. unfold exchange_key.
  destruct V as [[V E]|[V E]]; rewrite E in A; inversion A; subst.
  - exists SHA256, info. split; [destruct V as [-> | ->]; constructor|]. split; assumption.
  - exists SHA512, info. split; [constructor|]. split; assumption.
Qed.
Lemma exchange_made_of P s r ek pk psk v st x st' : exchange_create_with_packet_key P (Some s) (Some r) (Some ek) (Some pk) psk v st = (Val x, st') ->
  exists kp secret key ser, nd_keypair r = Some kp /\ gen_shared_secret P (Some ek) (Some (kp_key kp)) = Some secret /\
    exchange_key P secret psk s r v key /\ cipher_key_serialize (Some pk) = Some ser /\
    kx_id x = id_identifier (ch_node (nd_chain r)) /\ kx_key_id x = kp_identifier kp /\
    cr_cipher (kx_text x) = AES256_CTR /\ p_rand P st 16 = Some (cr_iv (kx_text x)) /\ cr_text (kx_text x) = Some (p_ctr P key (cr_iv (kx_text x)) ser).
Proof.
  intros H. apply packet_key_Val in H. destruct H as (ser & H0 & _ & H). apply create_data_Val in H. destruct H as (kp & d & params & key & text & K & ED & M & GK & EN & -> & _).
  apply Some_inj in ED. subst d. apply gen_key_agreed in GK. destruct GK as (CK & secret & GS & A). cbn [ex_local ex_cipher] in *.
  apply encrypt_Val in EN. destruct EN as (_ & _ & _ & _ & C & _ & R & T). rewrite CK in C, R, T. destruct T as [T _]. cbn [kx_id kx_key_id kx_text].
  exists kp, secret, (ck_data key), ser. repeat (split; [first [assumption|reflexivity|exact (exchange_key_of P _ _ _ _ _ _ _ M A)]|]). exact T.
Qed.
Lemma exchange_opened_of P s r ek x psk v b : exchange_derive_data P (Some s) (Some r) (Some ek) (Some x) psk v = Val b ->
  exists kp secret key, nd_keypair r = Some kp /\ gen_shared_secret P (Some (kp_key kp)) (Some ek) = Some secret /\
    exchange_key P secret psk s r v key /\
    aes256_decrypt P (Some (kx_text x)) None (Some {| ck_cipher := cr_cipher (kx_text x); ck_data := key |}) false = Val b.
Proof.
  unfold exchange_derive_data. destruct (nd_keypair r) as [kp|]; [|discriminate]. intros H.
  apply rbind_Val in H. destruct H as (l & L & H). apply lift_Val' in L. apply create_same_key in L. subst l.
  apply rbind_Val in H. destruct H as (c & C & H). apply lift_Val' in C. apply Some_inj in C. subst c.
  apply rbind_Val in H. destruct H as (m & M & H). apply lift_Val' in M. unfold ecdh_decipher in H. destruct (negb _); [discriminate|].
  apply rbind_Val in H. destruct H as (key & K & H). apply gen_key_agreed in K. destruct K as (CK & secret & GS & A). cbn [ex_local ex_cipher] in *.
  exists kp, secret, (ck_data key). repeat (split; [first [assumption|reflexivity|exact (exchange_key_of P _ _ _ _ _ _ _ M A)]|]).
  rewrite <- CK. destruct key. exact H.
Qed.
Lemma packet_key_opened_of P s r ek x psk v pk : exchange_derive_packet_key P (Some s) (Some r) (Some ek) (Some x) psk v = Val pk ->
  exists kp secret key b, nd_keypair r = Some kp /\ gen_shared_secret P (Some (kp_key kp)) (Some ek) = Some secret /\
    exchange_key P secret psk s r v key /\
    aes256_decrypt P (Some (kx_text x)) None (Some {| ck_cipher := cr_cipher (kx_text x); ck_data := key |}) false = Val b /\
    cipher_key_from_buffer (Some b) = Val pk.
Proof.
  intros H. unfold exchange_derive_packet_key in H. apply rbind_Val in H. destruct H as (o & O & H). destruct o as [b|]; [|discriminate].
  unfold rtry in O. destruct (exchange_derive_data _ _ _ _ _ _ _) as [c| |] eqn:E; try discriminate. apply Val_inj in O. apply Some_inj in O. subst c.
  apply exchange_opened_of in E. destruct E as (kp & secret & key & A & B & C & D). exists kp, secret, key, b. auto.
Qed.

(* --- what reading stored keys accepts *)
Lemma storage_keys_read_of b k : storage_keys_create_from_buffer (Some b) = Val k ->
  exists l r, pb_storage_keys_unpack b = Some {| ps_version := 1; ps_local := Some l; ps_remote := Some r |} /\
    cipher_key_from_buffer (Some l) = Val (sk_local k) /\ cipher_key_from_buffer (Some r) = Val (sk_remote k).
Proof.
  unfold storage_keys_create_from_buffer, storage_keys_create_from_proto. destruct (pb_storage_keys_unpack b) as [[v l r]|]; [|discriminate]. cbn [ps_local ps_remote ps_version].
  destruct l as [l|]; [|discriminate]. destruct r as [r|]; [|discriminate]. destruct (N.eqb_spec v CURRENT_STORAGE_KEY_VERSION) as [->|]; [|discriminate]. cbn [negb]. intros H.
  apply rbind_Val in H. destruct H as (x & X & H). apply rbind_Val in H. destruct H as (y & Y & H). apply Val_inj in H. subst k. exists l, r. auto.
Qed.
Lemma root_keys_read_of P b k : root_keys_create_from_buffer P (Some b) = Val k ->
  exists v n r s, pb_root_keys_unpack b = Some {| pr_version := v; pr_node := Some n; pr_remote := Some r; pr_signature := s |} /\ v <= 1 /\
    cipher_key_from_buffer (Some n) = Val (rk_node k) /\ cipher_key_from_buffer (Some r) = Val (rk_remote k) /\
    ec_key_import P (Some (or_none s)) true = Some (rk_signature k).
Proof.
  unfold root_keys_create_from_buffer. intros H. apply rbind_Val in H. destruct H as (m & M & H). apply lift_Val' in M. destruct m as [v n r s]. cbn [pr_version pr_node pr_remote pr_signature] in H.
  destruct n as [n|]; [|discriminate]. destruct r as [r|]; [|discriminate]. destruct (CURRENT_ROOT_KEY_VERSION <? v) eqn:V; [discriminate|]. unfold CURRENT_ROOT_KEY_VERSION in V.
  apply rbind_Val in H. destruct H as (x & X & H). apply rbind_Val in H. destruct H as (y & Y & H). apply rbind_Val in H. destruct H as (z & Z & H). apply lift_Val' in Z.
  destruct y as [y|]; [|discriminate]. apply Val_inj in H. subst k. cbn [rk_node rk_remote rk_signature].
  exists v, n, r, s. split; [exact M|]. split; [lia|]. split; [exact X|]. split; [|rewrite <- or_none_obytes; exact Z].
  unfold rtry in Y. destruct (cipher_key_from_protobytes r) eqn:E; try discriminate. apply Val_inj in Y. apply Some_inj in Y. subst. exact E.
Qed.
(* --- decoding *)
Lemma decode_verified P p a dev rk rc s d : decode_result_from_parse_result P p (Some a) dev (Some rk) rc s = Val d ->
  pa_err a = E_SUCCESS /\ pa_status a = SIG_VALID.
Proof. unfold decode_result_from_parse_result. destruct (pa_err a); try discriminate. destruct (pa_status a); try discriminate. auto. Qed.
(* --- keys made with a context *)
Lemma ctx_keypair_gen_ok P c i s k s' : ec_ok P -> gen_ok P -> sign_ok P -> engine_key P (id_key (ch_node (cx_chain c))) ->
  ctx_ephemeral_keypair_gen P (Some c) i s = (Val k, s') ->
  kp_identifier k = i /\ engine_key P (kp_key k) /\ ek_pri (kp_key k) <> None /\ keypair_verify_owner P (Some k) (Some (ch_node (cx_chain c))) = true.
Proof.
  intros EO GO SO EK H. cbn [ctx_ephemeral_keypair_gen] in H. apply keypair_gen_ok in H; try assumption. destruct H as (A & B & _ & _ & D & E). auto.
Qed.
