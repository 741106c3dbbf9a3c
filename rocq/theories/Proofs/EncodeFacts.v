(* Encoding a packet: which payloads make it dereference NULL. *)
From Verif.Base Require Import Bytes Monad.
From Verif.Model Require Import Buffer Cipher Ecdsa Kdf Prims Engine Proto Identity Node EcdhCipher Keys Payload Exchange Packet Ctx.
From Verif.Spec Require Import BufferSpec CodecSpec EngineSpec IdentitySpec KeysSpec MessageSpec CtxSpec.
From Verif.Proofs Require Import BytesFacts BufferFacts BufferProps ProtoFacts CodecFacts EngineFacts IdentityFacts CacheFacts IdentityProps KeysFacts MessageFacts SafetyFacts PacketFacts CtxFacts CtxSafety.
From Coq Require Import ZifyBool ZifyNat ZifyN.
Ltac Zify.zify_post_hook ::= Z.div_mod_to_equations.
Local Open Scope N_scope.

(* --- the key exchanges and the header *)
Lemma create_data_safe P s r k d c psk v : rand_ok P -> msafe (exchange_create_with_data P s r k d c psk v).
Proof.
  intros RO. unfold exchange_create_with_data. destruct s as [s|]; [|apply msafe_null]. destruct r as [r|]; [|apply msafe_null]. destruct k as [k|]; [|apply msafe_null].
  destruct (nd_keypair r) as [kp|]; [|apply msafe_null]. apply msafe_bind; [apply msafe_lift|]. intros e _ _ _. apply msafe_bind; [apply msafe_lift|]. intros x _ _ _.
  apply msafe_bind; [apply msafe_lift|]. intros m _ _ _. apply msafe_bind; [apply ecdh_cipher_safe, RO|]. intros t _ _ _. apply msafe_bind; [apply msafe_lift|]. intros; apply msafe_lift.
Qed.
Lemma packet_key_safe P s r k pk psk v : rand_ok P -> msafe (exchange_create_with_packet_key P s r k pk psk v).
Proof.
  intros RO. unfold exchange_create_with_packet_key. destruct s as [s|]; [|apply msafe_null]. destruct r as [r|]; [|apply msafe_null]. destruct k as [k|]; [|apply msafe_null]. destruct pk as [pk|]; [|apply msafe_null].
  apply msafe_bind; [apply msafe_lift|]. intros b _ _ _. apply create_data_safe, RO.
Qed.
Lemma make_exchanges_safe P s k pk v l : rand_ok P -> msafe (make_exchanges P s k pk v l).
Proof.
  intros RO. induction l as [|n l IH]; cbn [make_exchanges]; [apply msafe_ret|]. apply msafe_bind; [apply packet_key_safe, RO|]. intros x _ _ _.
  apply msafe_bind; [exact IH|]. intros; apply msafe_ret.
Qed.
Lemma set_encrypt_safe P s k : rand_ok P -> msafe (exchange_set_encrypt P s k).
Proof.
  intros RO. unfold exchange_set_encrypt. destruct s as [s|]; [|apply msafe_null]. destruct k as [k|]; [|apply msafe_null]. apply msafe_bind; [apply msafe_lift|].
  intros b _ _ _. apply encrypt_safe; [exact RO|discriminate].
Qed.
Lemma payload_encrypt_safe P p k : rand_ok P -> msafe (payload_encrypt P p k).
Proof.
  intros RO. unfold payload_encrypt. destruct p as [p|]; [|apply msafe_null]. destruct k as [k|]; [|apply msafe_null]. apply msafe_bind; [apply msafe_lift|].
  intros b _ _ _. apply encrypt_safe; [exact RO|discriminate].
Qed.
(* --- the packet itself *)
Lemma wire_length r : good_result r -> blen (result_wire r) <= 29 + blen (bytes_of (cr_text r)).
Proof.
  intros [G _]. unfold result_wire. destruct (cr_cipher r).
  - destruct G as (L & t & -> & T). rewrite blen_cons, !blen_app. cbn [bytes_of]. unfold blen in *. lia.
  - destruct G as (L & ->). rewrite blen_cons, !blen_app. cbn [bytes_of]. unfold blen in *. cbn [length]. lia.
Qed.
Lemma encrypted_serializes P b k s r s' : ctr_ok P -> aead_ok P -> b <> [] -> blen b + 29 <= library_limit -> aes256_encrypt P (Some b) None (Some k) None s = (Val r, s') ->
  cipher_result_serialize (Some r) = Some (result_wire r).
Proof.
  intros CO AO NE L H. destruct (encrypt_good P b None k None s r s' CO AO NE H) as [G E]. apply result_serialize_ok; [exact G|].
  pose proof (wire_length r G). unfold within_limit. split.
  - unfold result_wire. destruct (cr_cipher r); rewrite blen_cons; lia.
  - lia.
Qed.
Lemma components_safe P h p k v : (exists b, cipher_result_serialize (Some p) = Some b) -> msafe (packet_create_with_components P h (Some p) k v).
Proof.
  intros [b E]. unfold packet_create_with_components. destruct k as [k|]; [|apply msafe_null]. apply msafe_bind; [apply msafe_lift|]. intros hb _ _ _. rewrite E.
  apply msafe_bind; [apply msafe_lift|]. intros c _ _ _. apply msafe_bind; [apply sign_safe|]. intros; apply msafe_lift.
Qed.
Lemma serialize_not_empty p b : payload_serialize (Some p) = Some b -> b <> [].
Proof. unfold payload_serialize, pack_buffer. intros H. apply buffer_create_Some in H. destruct H as [-> H]. intros E. rewrite E in H. discriminate H. Qed.
Lemma seal_safe P ek hk pk pl s v items : rand_ok P -> ctr_ok P -> aead_ok P -> (forall b, payload_serialize (Some pl) = Some b -> blen b + 29 <= library_limit) ->
  msafe (seal P ek hk pk pl s v items).
Proof.
  intros RO CO AO F. unfold seal. apply msafe_bind; [apply set_encrypt_safe, RO|]. intros h _ _ _. apply msafe_bind; [apply payload_encrypt_safe, RO|]. intros p s1 s2 H.
  apply payload_encrypt_inv in H. destruct H as (b & S & H). apply components_safe. exists (result_wire p).
  exact (encrypted_serializes P b pk s1 p s2 CO AO (serialize_not_empty _ _ S) (F b S) H).
Qed.
Lemma exchanges_need_key P s pk v l st x st' : l <> [] -> make_exchanges P s None pk v l st = (Val x, st') -> False.
Proof.
  intros NE H. destruct l as [|n l]; [exact (NE eq_refl)|]. cbn [make_exchanges] in H. apply mbind_Val in H. destruct H as (y & s1 & H & _).
  unfold exchange_create_with_packet_key in H. destruct n; discriminate H.
Qed.
Lemma validate_length P l : length (snd (recipients_validate P l)) = length l.
Proof.
  induction l as [|[n|] l IH]; [reflexivity| |reflexivity]. cbn [recipients_validate]. cbv zeta. destruct (negb _); cbn [snd length]; [reflexivity|]. rewrite IH. reflexivity.
Qed.
Lemma exchange_step_safe P s k pk v l (c : bool) : rand_ok P ->
  msafe (if c then make_exchanges P s k pk v l else mbind (exchange_create_with_packet_key P (Some s) (hd None l) k (Some pk) None v) (fun _ => mres Null)).
Proof. intros RO. destruct c; [apply make_exchanges_safe, RO|]. apply msafe_bind; [apply packet_key_safe, RO|]. intros; apply msafe_null. Qed.
Lemma from_components_safe P hk pk ek pl rs s v : rand_ok P -> ctr_ok P -> aead_ok P -> (forall b, payload_serialize pl = Some b -> blen b + 29 <= library_limit) ->
  msafe (packet_create_from_components P hk pk ek pl rs s v).
Proof.
  intros RO CO AO F. destruct hk as [hk|]; [|apply msafe_null]. destruct pk as [pk|]; [|apply msafe_null]. destruct pl as [pl|]; [|apply msafe_null]. destruct rs as [rs|]; [|apply msafe_null].
  destruct s as [s|]; [|apply msafe_null]. destruct ek as [ek|].
  - rewrite components_eq. destruct (_ =? 0); [apply msafe_null|]. destruct (negb _); [apply msafe_null|].
    apply msafe_bind; [apply exchange_step_safe, RO|]. intros items _ _ _. exact (seal_safe P ek hk pk pl s v items RO CO AO F).
  - unfold packet_create_from_components. destruct (N.eqb_spec (N.of_nat (length rs)) 0) as [Z|Z]; [apply msafe_null|]. cbv zeta. destruct (negb _); [apply msafe_null|].
    apply msafe_bind; [apply exchange_step_safe, RO|]. intros items s1 s2 H. exfalso. destruct (exchange_array_ok _).
    + apply exchanges_need_key in H; [exact H|]. pose proof (validate_length P rs) as E. intros N. rewrite N in E. cbn [length] in E. lia.
    + apply mbind_Val in H. destruct H as (x & s0 & _ & H). destruct (mres_Null _ _ _ H).
Qed.
Lemma ctx_encode_safe P c pl ns : rand_ok P -> ctr_ok P -> aead_ok P -> (forall b, payload_serialize pl = Some b -> blen b + 29 <= library_limit) ->
  msafe (ctx_encode_packet P c pl ns).
Proof.
  intros RO CO AO F. unfold ctx_encode_packet. destruct c as [c|]; [|apply msafe_null]. destruct pl as [pl|]; [|apply msafe_null]. destruct ns as [ns|]; [|apply msafe_null].
  apply msafe_bind; [apply key_random_safe|]. intros k _ _ _. apply msafe_bind; [apply rand_key_safe|]. intros e _ _ _.
  apply msafe_bind; [exact (from_components_safe P _ _ _ _ _ _ _ RO CO AO F)|]. intros; apply msafe_lift.
Qed.

(* --- how long the encoding of a payload is *)
Lemma varint_enc_short : forall f n, blen (varint_enc f n) <= N.of_nat f + 1.
Proof.
  induction f as [|f IH]; intros n; cbn [varint_enc].
  - unfold blen. cbn [length]. lia.
  - destruct (n <? 128); [unfold blen; cbn [length]; lia|]. rewrite blen_cons. specialize (IH (n / 128)). lia.
Qed.
Lemma varint_short n : blen (varint n) <= 10.
Proof. exact (varint_enc_short 9 n). Qed.
Lemma varint_tag n : n < 16 -> blen (varint (8 * n + 2)) = 1 /\ blen (varint (8 * n)) = 1.
Proof.
  intros L. assert (forall m, m < 128 -> blen (varint m) = 1). { intros m H. unfold varint. cbn [varint_enc]. replace (m <? 128) with true by lia. reflexivity. }
  split; apply H; lia.
Qed.
Lemma f_len_short t b : t < 16 -> blen (f_len t b) <= 11 + blen b.
Proof. intros L. unfold f_len. rewrite !blen_app. destruct (varint_tag t L) as [-> _]. pose proof (varint_short (blen b)). lia. Qed.
Lemma f_var_short t n : t < 16 -> blen (f_var t n) <= 11.
Proof. intros L. unfold f_var. rewrite blen_app. destruct (varint_tag t L) as [_ ->]. pose proof (varint_short n). lia. Qed.
Lemma f_var_opt_short t n : t < 16 -> blen (f_var_opt t n) <= 11.
Proof. intros L. destruct n as [n|]; cbn [f_var_opt]; [apply f_var_short, L|discriminate]. Qed.
Lemma eph_short e : blen (pb_eph_pack e) <= 22.
Proof. unfold pb_eph_pack. rewrite blen_app. pose proof (f_var_short 1 (pe_ttl e) eq_refl). pose proof (f_var_opt_short 2 (pe_bor e) eq_refl). lia. Qed.
Lemma meta_short m : blen (pb_meta_pack m) <= 55 + blen (obytes (pm_tag m)).
Proof.
  unfold pb_meta_pack. rewrite !blen_app. pose proof (f_len_short 1 (pb_eph_pack (pm_eph m)) eq_refl). pose proof (eph_short (pm_eph m)). pose proof (f_var_opt_short 3 (pm_type m) eq_refl).
  destruct (pm_tag m) as [t|]; cbn [f_len_opt obytes]; [pose proof (f_len_short 2 t eq_refl); lia|]. change (blen []) with 0. lia.
Qed.
Lemma payload_pack_short m : blen (pb_payload_pack m) <= 77 + blen (obytes (pm_tag (pp_meta m))) + blen (pp_body m).
Proof.
  unfold pb_payload_pack. rewrite blen_app. pose proof (f_len_short 3 (pb_meta_pack (pp_meta m)) eq_refl). pose proof (f_len_short 4 (pp_body m) eq_refl). pose proof (meta_short (pp_meta m)). lia.
Qed.
Lemma payload_short p b : payload_serialize (Some p) = Some b -> blen b <= 77 + blen (me_tag (py_meta p)) + blen (py_body p).
Proof. unfold payload_serialize, pack_buffer. intros H. apply buffer_create_Some in H. destruct H as [-> _]. exact (payload_pack_short (payload_to_proto p)). Qed.

(* --- the payloads that crash it *)
Lemma too_long_refused r : good_result r -> cr_cipher r = AES256_GCM -> library_limit < 29 + blen (bytes_of (cr_text r)) -> cipher_result_serialize (Some r) = None.
Proof.
  intros [G _] C L. rewrite C in G. destruct G as (I & t & T & Lt). unfold cipher_result_serialize. destruct (negb _); [reflexivity|]. rewrite C, T. cbv zeta. cbn [is_authenticated negb].
  unfold buffer_concat_multi, buffer_create. cbn [map concat obytes].
  assert (S : size_ok (blen (n2b (cipher_id AES256_GCM) :: cr_iv r ++ t ++ obytes (cr_text r) ++ [])) = false).
  { rewrite blen_cons, !blen_app. change (blen []) with 0. destruct (size_ok _) eqn:E; [|reflexivity]. apply size_ok_limit in E. destruct E as [_ E]. exfalso.
    change (obytes (cr_text r)) with (bytes_of (cr_text r)) in E. unfold blen in I, Lt, E, L. lia. }
  cbn [app]. rewrite S. reflexivity.
Qed.
Lemma sealed_crashes P ek hk pk pl s v items st hc sb hb b : rand_ok P -> ctr_ok P -> aead_ok P -> (forall i n, p_rand P i n <> None) ->
  exchange_set_encrypt P (Some {| xs_sender := ek; xs_items := items |}) (Some hk) st = (Val hc, sb) -> cipher_result_serialize (Some hc) = Some hb ->
  good_key pk -> ck_cipher pk = AES256_GCM -> payload_serialize (Some pl) = Some b -> library_limit < blen b + 29 -> blen b < library_limit ->
  fst (seal P ek hk pk pl s v items st) = UB.
Proof.
  intros RO CO AO RN H HB GK CK S L1 L2. unfold seal. unfold mbind at 1. rewrite H.
  destruct (encrypt_succeeds P b None pk None sb AO GK L2) as (r & s1 & E).
  { intros N. destruct (N eq_refl). }
  { discriminate. }
  { destruct (p_rand P sb (iv_len (ck_cipher pk))) as [w|] eqn:R; [|destruct (RN _ _ R)]. exists w. split; [reflexivity|exact (RO _ _ _ R)]. }
  assert (PE : payload_encrypt P (Some pl) (Some pk) sb = (Val r, s1)). { unfold payload_encrypt. rewrite S. exact E. }
  unfold mbind. rewrite PE. unfold packet_create_with_components. rewrite HB.
  destruct (encrypt_good P b None pk None sb r s1 CO AO (serialize_not_empty _ _ S) E) as [G T].
  assert (C : cr_cipher r = AES256_GCM). { apply encrypt_Val in E. rewrite <- CK. apply E. }
  rewrite (too_long_refused r G C) by lia. reflexivity.
Qed.
(* whoever can send some payload crashes on every payload of that size *)
Lemma components_crash P hk pk ek pl0 pl rs s v st p st' b : rand_ok P -> ctr_ok P -> aead_ok P -> (forall i n, p_rand P i n <> None) -> good_key pk -> ck_cipher pk = AES256_GCM ->
  packet_create_from_components P (Some hk) (Some pk) (Some ek) (Some pl0) (Some rs) (Some s) v st = (Val p, st') ->
  payload_serialize (Some pl) = Some b -> library_limit < blen b + 29 -> blen b < library_limit ->
  fst (packet_create_from_components P (Some hk) (Some pk) (Some ek) (Some pl) (Some rs) (Some s) v st) = UB.
Proof.
  intros RO CO AO RN GK CK H S L1 L2. rewrite components_eq in *. destruct (_ =? 0); [destruct (mres_Null _ _ _ H)|]. destruct (negb _); [destruct (mres_Null _ _ _ H)|].
  apply mbind_Val in H. destruct H as (items & s1 & H1 & H). unfold mbind at 1. rewrite H1. unfold seal in H. apply mbind_Val in H. destruct H as (hc & s2 & H2 & H).
  apply mbind_Val in H. destruct H as (pc & s3 & H3 & H). unfold packet_create_with_components in H. apply mbind_Val in H. destruct H as (hb & s4 & H4 & _). apply mlift_Val in H4. destruct H4 as [H4 _].
  exact (sealed_crashes P ek hk pk pl s v items s1 hc s2 hb b RO CO AO RN H2 H4 GK CK S L1 L2).
Qed.
Lemma ctx_crash P c pl0 pl ns st e st' b : rand_ok P -> ctr_ok P -> aead_ok P -> (forall i n, p_rand P i n <> None) ->
  ctx_encode_packet P (Some c) (Some pl0) (Some ns) st = (Val e, st') ->
  payload_serialize (Some pl) = Some b -> library_limit < blen b + 29 -> blen b < library_limit ->
  fst (ctx_encode_packet P (Some c) (Some pl) (Some ns) st) = UB.
Proof.
  intros RO CO AO RN H S L1 L2. unfold ctx_encode_packet in *. apply mbind_Val in H. destruct H as (pk & s1 & H1 & H). apply mbind_Val in H. destruct H as (ek & s2 & H2 & H).
  apply mbind_Val in H. destruct H as (p & s3 & H3 & _). unfold mbind at 1. rewrite H1. unfold mbind at 1. rewrite H2. unfold mbind at 1.
  assert (G : good_key pk /\ ck_cipher pk = AES256_GCM).
  { unfold cipher_key_random in H1. apply mbind_Val in H1. destruct H1 as (k & s0 & _ & H1). apply mlift_Val in H1. destruct H1 as [H1 _]. split; [exact (created_key_good _ _ _ H1)|].
    unfold cipher_key_create in H1. destruct (blen k =? _); [|discriminate H1]. apply Some_inj in H1. rewrite <- H1. reflexivity. }
  pose proof (components_crash P _ pk ek pl0 pl ns _ _ s2 p s3 b RO CO AO RN (proj1 G) (proj2 G) H3 S L1 L2) as U.
  destruct (packet_create_from_components P _ _ _ (Some pl) _ _ _ s2) as [r s4]. cbn [fst] in U. rewrite U. reflexivity.
Qed.
