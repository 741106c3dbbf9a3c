(* Message packets: wire format, key agreement, encoding and decoding. *)
From Verif.Base Require Import Bytes Monad.
From Verif.Model Require Import Buffer Cipher Ecdsa Kdf Prims Engine Proto Identity Node EcdhCipher Payload Exchange Packet.
From Verif.Spec Require Import BufferSpec CodecSpec EngineSpec IdentitySpec MessageSpec.
From Verif.Proofs Require Import BytesFacts BufferFacts BufferProps CodecFacts ProtoFacts EngineFacts IdentityFacts CacheFacts IdentityProps KeysFacts MessageFacts.
From Coq Require Import ZifyBool ZifyNat ZifyN.
Ltac Zify.zify_post_hook ::= Z.div_mod_to_equations.
Local Open Scope N_scope.

(* --- key agreement *)
Lemma pair_form P k : ec_ok P -> gen_ok P -> engine_pair P k ->
  exists pub pri, ek_pub k = x00 :: pub /\ ek_pri k = Some pri /\ p_o2i P pub = Some pub /\ p_d2i P pri = Some (pub, pri) /\ pub <> [] /\ blen pub <= 133 /\ 0 < blen pri <= 1024.
Proof.
  intros EO GO [EK NP]. destruct (engine_key_form P k EO GO EK) as (pub & A & B & C & D & E). destruct (ek_pri k) as [pri|] eqn:Q; [|congruence].
  exists pub, pri. pose proof (E pri eq_refl) as F. destruct EO as (_ & E2 & E3). destruct (E3 _ _ C) as [_ L]. destruct (E2 _ _ _ F) as (_ & _ & L1 & L2).
  assert (pub <> []) by (intros ->; rewrite blen_nil in L; lia). repeat (split; [first [assumption|reflexivity|lia]|]). lia.
Qed.
Lemma evp_full P pub : pub <> [] -> p_o2i P pub = Some pub -> evp_public_key_from_buffer P (x00 :: pub) = Some pub.
Proof. intros NE O. destruct pub as [|c p]; [congruence|]. exact O. Qed.
Lemma pairs_agree P k1 k2 r1 r2 : ec_ok P -> gen_ok P -> ecdh_ok P -> engine_pair P k1 -> engine_pair P k2 -> ek_pub r1 = ek_pub k1 -> ek_pub r2 = ek_pub k2 ->
  gen_shared_secret P (Some k1) (Some r2) = gen_shared_secret P (Some k2) (Some r1).
Proof.
  intros EO GO [DO _] H1 H2 R1 R2. destruct (pair_form P _ EO GO H1) as (p1 & q1 & A1 & B1 & C1 & D1 & N1 & _).
  destruct (pair_form P _ EO GO H2) as (p2 & q2 & A2 & B2 & C2 & D2 & N2 & _).
  unfold gen_shared_secret. rewrite R1, R2, B1, B2, D1, D2, A1, A2. rewrite !evp_full by assumption.
  rewrite (DO p1 q1 p2 q2) by (eexists; eassumption). reflexivity.
Qed.
Lemma pair_copy P k : ec_ok P -> gen_ok P -> engine_pair P k -> ec_key_copy (Some k) = Some k.
Proof.
  intros EO GO H. destruct (pair_form P _ EO GO H) as (pub & pri & A & B & _ & _ & _ & L1 & L2). unfold ec_key_copy. rewrite B.
  rewrite !copy_limit by (rewrite ?A, ?blen_cons; unfold within_limit, library_limit; lia). destruct k as [[] p q]. cbn [ek_pub ek_pri ek_curve] in *. subst. reflexivity.
Qed.
Lemma gen_key_cipher P x r k ck : ecdh_gen_cipher_key P x r k = Val ck -> ck_cipher ck = ex_cipher x.
Proof.
  unfold ecdh_gen_cipher_key. destruct r as [r|]; [|discriminate]. destruct k as [k|]; [|discriminate]. destruct (negb _); [discriminate|]. cbv zeta. intros H.
  apply rbind_Val in H. destruct H as (s & _ & H). apply rbind_Val in H. destruct H as (kr & _ & H). apply rbind_Val in H. destruct H as (d & _ & H).
  apply lift_Val' in H. unfold cipher_key_create in H. destruct (_ =? _); [|discriminate]. apply Some_inj in H. subst ck. reflexivity.
Qed.
Lemma kdf_meta_ext s r s' r' psk v : ek_pub (id_key (ch_root s)) = ek_pub (id_key (ch_root s')) -> ek_pub (id_key (ch_root (nd_chain r))) = ek_pub (id_key (ch_root (nd_chain r'))) ->
  nd_dev_id r = nd_dev_id r' -> nd_keypair r <> None -> nd_keypair r' <> None ->
  exchange_kdf_meta (Some s) (Some r) psk v = exchange_kdf_meta (Some s') (Some r') psk v.
Proof.
  intros A B C D E. unfold exchange_kdf_meta, exchange_kdf_info. rewrite A, B, C. destruct (nd_keypair r); [|congruence]. destruct (nd_keypair r'); [|congruence]. reflexivity.
Qed.
Lemma create_data_Val P s r k data c psk v st x st' : exchange_create_with_data P (Some s) (Some r) (Some k) data c psk v st = (Val x, st') ->
  exists kp d params key text, nd_keypair r = Some kp /\ data = Some d /\ exchange_kdf_meta (Some s) (Some r) psk v = Some params /\
    ecdh_gen_cipher_key P {| ex_local := k; ex_cipher := c |} (Some (kp_key kp)) (Some params) = Val key /\
    aes256_encrypt P (Some d) None (Some key) None st = (Val text, st') /\
    x = {| kx_id := id_identifier (ch_node (nd_chain r)); kx_key_id := kp_identifier kp; kx_text := text |} /\ within_limit (blen (kx_id x)).
Proof.
  unfold exchange_create_with_data. destruct (nd_keypair r) as [kp|]; [|discriminate]. intros H.
  apply mbind_Val in H. destruct H as (k' & s1 & H1 & H). apply mlift_Val in H1. destruct H1 as [H1 ->]. apply create_same_key in H1. subst k'.
  apply mbind_Val in H. destruct H as (x' & s2 & H2 & H). apply mlift_Val in H2. destruct H2 as [H2 ->]. apply Some_inj in H2. subst x'.
  apply mbind_Val in H. destruct H as (params & s3 & H3 & H). apply mlift_Val in H3. destruct H3 as [H3 ->].
  apply mbind_Val in H. destruct H as (text & s4 & H4 & H). apply mbind_Val in H. destruct H as (id & s5 & H5 & H). apply mlift_Val in H5. destruct H5 as [H5 ->].
  apply buffer_copy_Some in H5. destruct H5 as [H5 L]. apply Some_inj in H5. apply mlift_Val in H. destruct H as [H ->]. apply Some_inj in H.
  unfold ecdh_cipher in H4. destruct data as [d|]; [|discriminate]. apply mbind_Val in H4. destruct H4 as (key & s6 & H6 & H4). apply mres_Val in H6. destruct H6 as [H6 ->].
  exists kp, d, params, key, text. subst x. subst id. repeat (split; [first [reflexivity|assumption]|]). exact L.
Qed.
Lemma derive_data_eq P s r kp rk params pek e psk v : nd_keypair r = Some kp -> ec_key_copy (Some (kp_key kp)) = Some rk -> exchange_kdf_meta (Some s) (Some r) psk v = Some params ->
  exchange_derive_data P (Some s) (Some r) pek (Some e) psk v = ecdh_decipher P {| ex_local := rk; ex_cipher := cr_cipher (kx_text e) |} (Some (kx_text e)) pek (Some params).
Proof. intros A B C. unfold exchange_derive_data. rewrite A, B, C. reflexivity. Qed.
Lemma derive_key_eq P s r pek e psk v b : exchange_derive_data P (Some s) (Some r) pek (Some e) psk v = Val b ->
  exchange_derive_packet_key P (Some s) (Some r) pek (Some e) psk v = cipher_key_from_buffer (Some b).
Proof. intros A. unfold exchange_derive_packet_key. rewrite A. reflexivity. Qed.
Lemma decipher_eq P x c r k key : cr_cipher c = ex_cipher x -> ecdh_gen_cipher_key P x (Some r) (Some k) = Val key ->
  ecdh_decipher P x (Some c) (Some r) (Some k) = aes256_decrypt P (Some c) None (Some key) false.
Proof. intros A B. unfold ecdh_decipher. rewrite A, N.eqb_refl, B. reflexivity. Qed.
Lemma gen_key_agree_pairs P ek rk r1 r2 c params : ec_ok P -> gen_ok P -> ecdh_ok P -> engine_pair P ek -> engine_pair P rk -> ek_pub r1 = ek_pub ek -> ek_pub r2 = ek_pub rk ->
  ecdh_gen_cipher_key P {| ex_local := rk; ex_cipher := c |} (Some r1) (Some params) = ecdh_gen_cipher_key P {| ex_local := ek; ex_cipher := c |} (Some r2) (Some params).
Proof. intros EO GO DO A B C D. unfold ecdh_gen_cipher_key. cbn [ex_local ex_cipher]. rewrite (pairs_agree P rk ek r2 r1 EO GO DO B A D C). reflexivity. Qed.
Lemma key_serialize_eq k : cipher_key_serialize (Some k) = buffer_create (n2b (cipher_id (ck_cipher k)) :: ck_data k).
Proof. reflexivity. Qed.
Lemma key_serialize_nonempty k b : cipher_key_serialize (Some k) = Some b -> b <> [].
Proof. rewrite key_serialize_eq. intros H. apply buffer_create_Some in H. destruct H as [-> _]. discriminate. Qed.
Lemma packet_key_Val P s r k pk psk v st x st' : exchange_create_with_packet_key P (Some s) (Some r) (Some k) (Some pk) psk v st = (Val x, st') ->
  exists ser, cipher_key_serialize (Some pk) = Some ser /\ ser <> [] /\ exchange_create_with_data P (Some s) (Some r) (Some k) (Some ser) AES256_CTR psk v st = (Val x, st').
Proof.
  unfold exchange_create_with_packet_key. intros H. apply mbind_Val in H. destruct H as (ser & s0 & H0 & H). apply mlift_Val in H0. destruct H0 as [H0 ->].
  exists ser. split; [exact H0|]. split; [exact (key_serialize_nonempty _ _ H0)|exact H].
Qed.
Lemma exchange_agrees P s r ek pk psk v st x st' kp rk s' r' kp' ek' : ec_ok P -> gen_ok P -> ecdh_ok P -> ctr_ok P -> aead_ok P ->
  exchange_create_with_packet_key P (Some s) (Some r) (Some ek) (Some pk) psk v st = (Val x, st') ->
  good_key pk -> engine_pair P ek -> ek_pub ek' = ek_pub ek -> nd_keypair r = Some kp -> engine_pair P rk -> ek_pub (kp_key kp) = ek_pub rk ->
  nd_keypair r' = Some kp' -> kp_key kp' = rk -> nd_dev_id r' = nd_dev_id r ->
  ek_pub (id_key (ch_root s')) = ek_pub (id_key (ch_root s)) -> ek_pub (id_key (ch_root (nd_chain r'))) = ek_pub (id_key (ch_root (nd_chain r))) ->
  exchange_derive_packet_key P (Some s') (Some r') (Some ek') (Some x) psk v = Val pk.
Proof.
  intros EO GO DO CO AO H G PE EE K PR KP K' RK DV RS RR. apply packet_key_Val in H. destruct H as (ser & H0 & NE & H). rewrite (key_serialize_ok _ G) in H0. apply Some_inj in H0.
  apply create_data_Val in H. destruct H as (kp0 & d & params & key & text & K0 & ED & M & GK & EN & -> & LI). rewrite K in K0. apply Some_inj in K0. apply Some_inj in ED. rewrite <- K0 in GK. rewrite <- ED in EN. clear ED d.
  pose proof (decrypt_encrypt P _ _ _ _ _ _ _ false CO AO NE ltac:(discriminate) EN) as DE.
  pose proof (gen_key_cipher P _ _ _ _ GK) as CK. cbn [ex_cipher] in CK.
  assert (CT : cr_cipher text = AES256_CTR). { apply encrypt_Val in EN. destruct EN as (_ & _ & _ & _ & C & _). congruence. }
  rewrite (derive_key_eq P s' r' (Some ek') _ psk v ser); [rewrite <- H0; apply key_wire_parse, G|].
  assert (M' : exchange_kdf_meta (Some s') (Some r') psk v = Some params). { rewrite <- M. apply kdf_meta_ext; congruence. }
  assert (C' : ec_key_copy (Some (kp_key kp')) = Some rk). { rewrite RK. exact (pair_copy P rk EO GO PR). }
  rewrite (derive_data_eq P s' r' kp' rk params (Some ek') _ psk v K' C' M'). cbn [kx_text]. rewrite CT.
  rewrite <- (gen_key_agree_pairs P ek rk ek' (kp_key kp) _ _ EO GO DO PE PR EE KP) in GK.
  rewrite (decipher_eq P _ _ _ _ key (CT : cr_cipher text = ex_cipher {| ex_local := rk; ex_cipher := AES256_CTR |}) GK). exact DE.
Qed.
Lemma exchange_made_good P s r ek pk psk v st x st' : ctr_ok P -> aead_ok P ->
  exchange_create_with_packet_key P (Some s) (Some r) (Some ek) (Some pk) psk v st = (Val x, st') ->
  (forall kp, nd_keypair r = Some kp -> kp_identifier kp < 2 ^ 64) ->
  good_exchange x /\ kx_id x = id_identifier (ch_node (nd_chain r)) /\ (exists kp, nd_keypair r = Some kp /\ kx_key_id x = kp_identifier kp) /\ (v = 2 \/ v = 3 \/ v = 4).
Proof.
  intros CO AO H KI. apply packet_key_Val in H. destruct H as (ser & H0 & NE & H).
  apply create_data_Val in H. destruct H as (kp & d & params & key & text & K & ED & M & GK & EN & -> & LI). apply Some_inj in ED. subst d.
  destruct (encrypt_good P _ _ _ _ _ _ _ CO AO NE EN) as [G _]. cbn [kx_id kx_key_id] in *. split; [|split; [reflexivity|split; [exists kp; split; [exact K|reflexivity]|]]].
  - split; [intros E; cbn [kx_id] in E; rewrite E in LI; unfold within_limit in LI; rewrite blen_nil in LI; lia|]. split; [exact (KI kp K)|exact G].
  - unfold exchange_kdf_meta in M. rewrite K in M. destruct (v =? 2) eqn:V2; [left; lia|]. destruct (v =? 3) eqn:V3; [right; left; lia|]. destruct (v =? 4) eqn:V4; [right; right; lia|]. discriminate.
Qed.

(* --- the wire format of packets *)
Lemma packet_serialize_ok p : good_packet p -> blen (packet_wire p) <= library_limit -> packet_serialize (Some p) = Some (packet_wire p).
Proof.
  intros (V & C & G & D) L. unfold packet_serialize. rewrite (sig_serialize_ok _ G). replace (negb _) with false.
  2:{ pose proof (sig_wire_length _ G) as LS. unfold blen. rewrite LS. destruct (es_curve (pt_signature p)). reflexivity. }
  apply concat_multi_limit; [|unfold within_limit; split; [unfold packet_wire; rewrite blen_cons; lia|exact L]].
  destruct (es_curve (pt_signature p)). change (n2b (curve_id P521)) with x00. cbn [map concat obytes app]. rewrite app_nil_r. reflexivity.
Qed.
Lemma packet_serialize_inv p b : good_sig (pt_signature p) -> packet_serialize (Some p) = Some b -> b = packet_wire p /\ blen b <= library_limit.
Proof.
  intros G. unfold packet_serialize. rewrite (sig_serialize_ok _ G). destruct (negb _); [discriminate|]. intros H. apply concat_multi_Some in H. destruct H as [-> L].
  destruct (es_curve (pt_signature p)). change (n2b (curve_id P521)) with x00 in *. cbn [map concat obytes app] in *. rewrite app_nil_r in *. split; [reflexivity|apply L].
Qed.
Lemma version_byte v : supported_version v -> b2n (n2b v) = v.
Proof. intros [->|[->| ->]]; reflexivity. Qed.
Lemma rd_1 (a b : byte) l : rd (a :: b :: l) 1 = Val b.
Proof. reflexivity. Qed.
Lemma memread_end (a m : bytes) st ln : blen a = st -> blen m = ln -> memread (a ++ m) st ln = Val m.
Proof.
  intros <- <-. rewrite memread_ok by (rewrite blen_app; lia). f_equal. unfold blen. rewrite !Nat2N.id. rewrite <- (app_nil_r m) at 1. apply slice_app_mid.
Qed.
Lemma blen_pos (l : bytes) : l <> [] -> 0 < blen l.
Proof. apply nonempty_blen. Qed.
(* the wire format, with an arbitrary second byte and signature block *)
Lemma packet_parse_wire b0 b1 c sg s : supported_version (b2n b0) -> (if b2n b0 =? 2 then N.land (b2n b1) 15 else b2n b1) = 0 -> c <> [] -> blen sg = 143 ->
  ecdsa_result_create_from_buffer (Some sg) = Val s -> es_digest s = SHA512 -> blen c + 145 <= library_limit ->
  packet_create_from_buffer (Some (b0 :: b1 :: c ++ sg)) = Val {| pt_version := b2n b0; pt_content := c; pt_signature := s |}.
Proof.
  intros V B NE LS PS D L. pose proof (blen_pos _ NE). unfold packet_create_from_buffer. set (w := b0 :: b1 :: c ++ sg).
  assert (LW : blen w = 2 + blen c + 143) by (unfold w; rewrite !blen_cons, blen_app; lia).
  unfold PACKET_META_SIZE. replace (blen w <=? 2) with false by lia. unfold w at 1. rewrite rd_0. cbn [rbind]. cbv zeta.
  replace (_ || _) with false by (unfold CURRENT_PACKET_VERSION, OLDEST_PACKET_VERSION; destruct V as [->|[->| ->]]; reflexivity).
  unfold w at 1. rewrite rd_1. cbn [rbind]. rewrite B. change (curve_find 0) with (Some P521). cbn [lift rbind]. cbn [signature_size].
  replace (blen w <=? 2 + 143) with false by lia.
  assert (EW : w = (b0 :: b1 :: c) ++ sg) by reflexivity. rewrite EW at 1. rewrite (memread_end (b0 :: b1 :: c) sg) by (rewrite ?blen_cons; lia). cbn [rbind]. rewrite PS. cbn [rbind].
  rewrite D. destruct (es_curve s) eqn:C. cbn [digest_matching_curve]. rewrite !N.eqb_refl. cbn [negb orb].
  assert (EW' : w = [b0; b1] ++ c ++ sg) by reflexivity. rewrite EW' at 1. unfold library_limit in L.
  rewrite (section_pre [b0; b1] c sg 2 (blen w - 143 - 2)) by (rewrite ?LW; unfold MAX_BUFFER_SIZE; first [reflexivity|lia]). reflexivity.
Qed.
Lemma packet_parse_ok p : good_packet p -> blen (packet_wire p) <= library_limit -> packet_create_from_buffer (Some (packet_wire p)) = Val p.
Proof.
  intros (V & C & G & D) L. unfold packet_wire in *. pose proof (sig_wire_length _ G) as LS. assert (LB : blen (sig_wire (pt_signature p)) = 143) by (unfold blen; rewrite LS; reflexivity).
  rewrite (packet_parse_wire _ _ _ _ (pt_signature p)).
  - rewrite (version_byte _ V). destruct p; reflexivity.
  - rewrite (version_byte _ V). exact V.
  - destruct (_ =? _); reflexivity.
  - exact C.
  - exact LB.
  - apply sig_parse_ok, G.
  - exact D.
  - rewrite !blen_cons, blen_app in L. lia.
Qed.
Lemma packet_parse_inv b p : packet_create_from_buffer (Some b) = Val p ->
  exists b0 b1 sg, b = b0 :: b1 :: pt_content p ++ sg /\ b2n b0 = pt_version p /\ supported_version (pt_version p) /\
    (if pt_version p =? 2 then N.land (b2n b1) 15 else b2n b1) = 0 /\ pt_content p <> [] /\ blen sg = 143 /\
    ecdsa_result_create_from_buffer (Some sg) = Val (pt_signature p) /\ es_digest (pt_signature p) = SHA512 /\ blen (pt_content p) < library_limit.
Proof.
  unfold packet_create_from_buffer, PACKET_META_SIZE. destruct (blen b <=? 2) eqn:E2; [discriminate|]. destruct b as [|b0 [|b1 t]]; [discriminate|discriminate|].
  rewrite rd_0. cbn [rbind]. cbv zeta. destruct (_ || _) eqn:EV; [discriminate|]. rewrite rd_1. cbn [rbind]. set (ty := if b2n b0 =? 2 then _ else _).
  destruct (curve_find ty) as [cv|] eqn:EC; [|discriminate]. cbn [lift rbind]. assert (TY : ty = 0) by (unfold curve_find in EC; destruct (ty =? 0) eqn:Z; [lia|discriminate]). destruct cv. cbn [signature_size].
  set (w := b0 :: b1 :: t) in *. destruct (blen w <=? 2 + 143) eqn:E3; [discriminate|]. rewrite memread_ok by lia. cbn [rbind]. set (sg := slice _ _ _).
  intros H. apply rbind_Val in H. destruct H as (s & PS & H). destruct (_ || _) eqn:ED in H; [discriminate|]. apply rbind_Val in H. destruct H as (c & HC & H).
  apply lift_Val' in HC, H. apply Some_inj in H. subst p. cbn [pt_version pt_content pt_signature] in *.
  assert (LW : (length w = N.to_nat (blen w))%nat) by (unfold blen; lia).
  assert (ET : t = c ++ sg /\ blen c = blen w - 143 - 2).
  { apply section_inv in HC. destruct HC as (a & z & EQ & LA & LC & LL & _ & EA & EZ). split; [|exact LC].
    assert (SZ : sg = z). { rewrite EZ. unfold sg, slice. replace (N.to_nat (2 + (blen w - 143 - 2))) with (N.to_nat (blen w - 143)) by lia. apply firstn_all2. rewrite skipn_length. lia. }
    rewrite SZ. rewrite EA in EQ. change (firstn (N.to_nat 2) w) with [b0; b1] in EQ. unfold w in EQ. cbn [app] in EQ. congruence. }
  destruct ET as [ET LC]. exists b0, b1, sg. split; [unfold w; congruence|]. split; [reflexivity|]. split; [unfold CURRENT_PACKET_VERSION, OLDEST_PACKET_VERSION in EV; unfold supported_version; lia|]. split; [exact TY|].
  split; [intros ->; rewrite blen_nil in LC; lia|]. split; [unfold sg, blen; rewrite slice_length; lia|]. split; [exact PS|]. split.
  - destruct (es_digest s) eqn:DG; [|discriminate|reflexivity]. destruct (es_curve s); discriminate.
  - apply section_inv in HC. destruct HC as (_ & _ & _ & _ & LC' & LL & _). unfold library_limit. unfold MAX_BUFFER_SIZE in LL. lia.
Qed.
Lemma packet_parse_safe b : packet_create_from_buffer b <> UB.
Proof.
  destruct b as [b|]; [|discriminate]. unfold packet_create_from_buffer, PACKET_META_SIZE. destruct (blen b <=? 2) eqn:E2; [discriminate|]. destruct b as [|b0 [|b1 t]]; [discriminate|discriminate|].
  rewrite rd_0. cbn [rbind]. cbv zeta. destruct (_ || _); [discriminate|]. rewrite rd_1. cbn [rbind]. destruct (curve_find _) as [cv|]; [|discriminate]. cbn [lift rbind].
  destruct cv. cbn [signature_size]. set (w := b0 :: b1 :: t) in *. destruct (blen w <=? 2 + 143) eqn:E3; [discriminate|]. rewrite memread_ok by lia. cbn [rbind].
  destruct (ecdsa_result_create_from_buffer _) as [s| |] eqn:PS; [|discriminate|destruct (sig_parse_safe _ PS)]. cbn [rbind]. destruct (_ || _); [discriminate|]. destruct (buffer_copy_section _ _ _); discriminate.
Qed.
Lemma pb_packet_roundtrip m : blen (pq_header m) < two32 -> blen (pq_payload m) < two32 -> pb_packet_unpack (pb_packet_pack m) = Some m.
Proof.
  intros A B. unfold pb_packet_unpack, pb_packet_pack. rewrite <- (app_nil_r (f_len 2 _)). rewrite !scan_len by (lia || assumption). rewrite scan_nil. destruct m as [h p]. fields. reflexivity.
Qed.

(* --- what making a packet does *)
Lemma verify_fields P n : nd_dev_id (snd (node_verify_signature_chain P n)) = nd_dev_id n /\ nd_keypair (snd (node_verify_signature_chain P n)) = nd_keypair n /\
  ch_root (nd_chain (snd (node_verify_signature_chain P n))) = ch_root (nd_chain n) /\ ch_node (nd_chain (snd (node_verify_signature_chain P n))) = ch_node (nd_chain n).
Proof.
  unfold node_verify_signature_chain. destruct (node_has_valid_cache P n); [cbn [snd]; auto|]. cbv zeta. pose proof (validate_fields P (nd_chain n)) as (A & B & _).
  destruct (negb _); cbn [snd]; unfold node_update_status_cache, node_set; cbn [nd_dev_id nd_keypair nd_chain]; auto.
Qed.
Lemma validate_inv P l : fst (recipients_validate P l) = true ->
  Forall2 (fun r r' => exists n, r = Some n /\ fst (node_verify_signature_chain P n) = true /\ r' = Some (snd (node_verify_signature_chain P n))) l (snd (recipients_validate P l)).
Proof.
  induction l as [|[n|] l IH]; intros H; [constructor| |discriminate]. cbn [recipients_validate] in *. cbv zeta in *.
  destruct (fst (node_verify_signature_chain P n)) eqn:E; cbn [negb fst snd] in *; [|discriminate]. constructor; [exists n; auto|]. apply IH, H.
Qed.
Lemma make_exchanges_inv P s ek pk v : forall l st items st', make_exchanges P s ek pk v l st = (Val items, st') ->
  exists xs, items = map Some xs /\ Forall2 (fun r x => exists st1 st2, exchange_create_with_packet_key P (Some s) r ek (Some pk) None v st1 = (Val x, st2)) l xs.
Proof.
  induction l as [|r l IH]; intros st items st' H; cbn [make_exchanges] in H.
  - apply mres_Val in H. destruct H as [H _]. apply Val_inj in H. subst items. exists []. split; [reflexivity|constructor].
  - apply mbind_Val in H. destruct H as (x & s1 & H1 & H). apply mbind_Val in H. destruct H as (r' & s2 & H2 & H). apply mres_Val in H. destruct H as [H _]. apply Val_inj in H. subst items.
    destruct (IH _ _ _ H2) as (xs & -> & F). exists (x :: xs). split; [reflexivity|]. constructor; [eauto|exact F].
Qed.
Lemma result_serialize_inv r b : good_result r -> cipher_result_serialize (Some r) = Some b -> b = result_wire r /\ within_limit (blen (result_wire r)).
Proof.
  intros G E. destruct (N.le_gt_cases (blen (result_wire r)) library_limit) as [L|L]; [|rewrite (result_too_big _ L G) in E; discriminate].
  assert (W : within_limit (blen (result_wire r))) by (pose proof (result_wire_size _ G); unfold within_limit; lia).
  rewrite (result_serialize_ok _ G W) in E. apply Some_inj in E. auto.
Qed.
Lemma with_components_inv P hc pc k v st p st' : ec_ok P -> gen_ok P -> sign_ok P -> engine_key P k -> good_result hc -> good_result pc ->
  packet_create_with_components P (Some hc) (Some pc) (Some k) v st = (Val p, st') ->
  pt_version p = v /\ pb_packet_unpack (pt_content p) = Some {| pq_header := result_wire hc; pq_payload := result_wire pc |} /\
  within_limit (blen (result_wire hc)) /\ within_limit (blen (result_wire pc)) /\ pt_content p <> [] /\
  ec_verify P (Some (pt_signature p)) (Some k) (Some (pt_content p)) = true /\ good_sig (pt_signature p) /\ es_digest (pt_signature p) = SHA512.
Proof.
  intros EO GO SO EK GH GP H. unfold packet_create_with_components in H. apply mbind_Val in H. destruct H as (hb & s1 & H1 & H). apply mlift_Val in H1. destruct H1 as [H1 ->].
  destruct (cipher_result_serialize (Some pc)) as [pb|] eqn:H2; [|apply mres_Val in H; destruct H; discriminate].
  destruct (result_serialize_inv _ _ GH H1) as [-> WH]. destruct (result_serialize_inv _ _ GP H2) as [-> WP].
  apply mbind_Val in H. destruct H as (c & s2 & H3 & H). apply mlift_Val in H3. destruct H3 as [H3 ->]. apply pack_buffer_Some in H3. destruct H3 as [EC WC].
  apply mbind_Val in H. destruct H as (sg & s3 & H4 & H). apply mlift_Val in H. destruct H as [H _]. apply Some_inj in H. subst p. cbn [pt_version pt_content pt_signature].
  destruct (sign_verifies P k c _ _ _ _ EO GO SO EK H4) as (V & G & D).
  split; [reflexivity|]. split; [rewrite EC; apply pb_packet_roundtrip; cbn [pq_header pq_payload]; unfold within_limit, library_limit, two32 in *; lia|].
  split; [exact WH|]. split; [exact WP|]. split; [rewrite EC; intros Z; rewrite Z in WC; unfold within_limit in WC; rewrite blen_nil in WC; lia|].
  split; [exact V|]. split; [exact G|]. rewrite D. destruct (ek_curve k). reflexivity.
Qed.
Lemma set_encrypt_inv P x k st r st' : exchange_set_encrypt P (Some x) (Some k) st = (Val r, st') ->
  exists ser, exchange_set_serialize (Some x) = Some ser /\ aes256_encrypt P (Some ser) None (Some k) None st = (Val r, st').
Proof. unfold exchange_set_encrypt. intros H. apply mbind_Val in H. destruct H as (ser & s4 & H4 & H). apply mlift_Val in H4. destruct H4 as [H4 ->]. eauto. Qed.
Lemma payload_encrypt_inv P x k st r st' : payload_encrypt P (Some x) (Some k) st = (Val r, st') ->
  exists ser, payload_serialize (Some x) = Some ser /\ aes256_encrypt P (Some ser) None (Some k) None st = (Val r, st').
Proof. unfold payload_encrypt. intros H. apply mbind_Val in H. destruct H as (ser & s4 & H4 & H). apply mlift_Val in H4. destruct H4 as [H4 ->]. eauto. Qed.
Definition seal P ek hk pk pl s v (items : list (option key_exchange)) : M packet :=
  (enc_header <-- exchange_set_encrypt P (Some {| xs_sender := ek; xs_items := items |}) (Some hk) ;;
   enc_payload <-- payload_encrypt P (Some pl) (Some pk) ;;
   packet_create_with_components P (Some enc_header) (Some enc_payload) (Some (id_key (ch_node s))) v)%m.
Lemma components_eq P hk pk ek pl rs s v : packet_create_from_components P (Some hk) (Some pk) (Some ek) (Some pl) (Some rs) (Some s) v =
  if N.of_nat (length rs) =? 0 then mres Null else if negb (fst (recipients_validate P rs)) then mres Null
  else mbind (if exchange_array_ok (N.of_nat (length rs)) then make_exchanges P s (Some ek) pk v (snd (recipients_validate P rs))
              else mbind (exchange_create_with_packet_key P (Some s) (hd None (snd (recipients_validate P rs))) (Some ek) (Some pk) None v) (fun _ => mres Null))
         (seal P ek hk pk pl s v).
Proof. reflexivity. Qed.
Lemma mres_Null {A} s (x : A) s' : mres Null s = (Val x, s') -> False.
Proof. discriminate. Qed.
Lemma seal_inv P ek hk pk pl s v items st p st' : seal P ek hk pk pl s v items st = (Val p, st') -> exists hser hc pser pc sb sc,
    exchange_set_serialize (Some {| xs_sender := ek; xs_items := items |}) = Some hser /\ aes256_encrypt P (Some hser) None (Some hk) None st = (Val hc, sb) /\
    payload_serialize (Some pl) = Some pser /\ aes256_encrypt P (Some pser) None (Some pk) None sb = (Val pc, sc) /\
    packet_create_with_components P (Some hc) (Some pc) (Some (id_key (ch_node s))) v sc = (Val p, st').
Proof.
  unfold seal. intros H. apply mbind_Val in H. destruct H as (hc & s2 & H2 & H). apply mbind_Val in H. destruct H as (pc & s3 & H3 & H).
  apply set_encrypt_inv in H2. destruct H2 as (hser & A & B). apply payload_encrypt_inv in H3. destruct H3 as (pser & C & D). exists hser, hc, pser, pc, s2, s3. auto.
Qed.
Lemma components_steps P hk pk ek pl rs s v st p st' : packet_create_from_components P (Some hk) (Some pk) (Some ek) (Some pl) (Some rs) (Some s) v st = (Val p, st') ->
  rs <> [] /\ fst (recipients_validate P rs) = true /\ exists items hser hc pser pc sa sb sc,
    make_exchanges P s (Some ek) pk v (snd (recipients_validate P rs)) st = (Val items, sa) /\
    exchange_set_serialize (Some {| xs_sender := ek; xs_items := items |}) = Some hser /\ aes256_encrypt P (Some hser) None (Some hk) None sa = (Val hc, sb) /\
    payload_serialize (Some pl) = Some pser /\ aes256_encrypt P (Some pser) None (Some pk) None sb = (Val pc, sc) /\
    packet_create_with_components P (Some hc) (Some pc) (Some (id_key (ch_node s))) v sc = (Val p, st').
Proof.
  rewrite components_eq. destruct (N.of_nat (length rs) =? 0) eqn:L; [intros H; destruct (mres_Null _ _ _ H)|].
  destruct (fst (recipients_validate P rs)) eqn:V; cbn [negb]; [|intros H; destruct (mres_Null _ _ _ H)]. intros H.
  apply mbind_Val in H. destruct H as (items & s1 & H1 & H). destruct (exchange_array_ok _).
  2:{ apply mbind_Val in H1. destruct H1 as (x & s0 & _ & H1). destruct (mres_Null _ _ _ H1). }
  apply seal_inv in H. destruct H as (hser & hc & pser & pc & sb & sc & A & B & C & D & E).
  split; [intros ->; discriminate|]. split; [reflexivity|]. exists items, hser, hc, pser, pc, s1, sb, sc. auto 10.
Qed.

(* the contents of a packet that was made: exchanges xs for the recipients rs, and payload *)
Record made (P : prims) (hk pk : cipher_key) (ek : ec_key) (pl : payload) (rs : list (option node)) (s : chain) (v : N) (p : packet) (xs : list key_exchange) (hc pc : cipher_result) : Prop := {
  md_wire : good_packet p;
  md_version : pt_version p = v;
  md_verifies : ec_verify P (Some (pt_signature p)) (Some (id_key (ch_node s))) (Some (pt_content p)) = true;
  md_unpack : pb_packet_unpack (pt_content p) = Some {| pq_header := result_wire hc; pq_payload := result_wire pc |};
  md_header : cipher_result_from_buffer (Some (result_wire hc)) = Val hc;
  md_payload : cipher_result_from_buffer (Some (result_wire pc)) = Val pc;
  md_gcm : cr_cipher hc = AES256_GCM;
  md_set : exchange_set_create_from_cipher P (Some hc) (Some hk) = Val {| xs_sender := public_key ek; xs_items := map Some xs |};
  md_body : payload_create_from_cipher P (Some pc) (Some pk) = Val pl;
  md_copy : Forall (fun x => key_exchange_copy (Some x) = Some x) xs;
  md_items : Forall2 (fun r x => exists n n' st1 st2, r = Some n /\ nd_dev_id n' = nd_dev_id n /\ nd_keypair n' = nd_keypair n /\ ch_root (nd_chain n') = ch_root (nd_chain n) /\
     kx_id x = id_identifier (ch_node (nd_chain n)) /\ fst (node_verify_signature_chain P n) = true /\
     exchange_create_with_packet_key P (Some s) (Some n') (Some ek) (Some pk) None v st1 = (Val x, st2)) rs xs
}.
Lemma Forall2_join {A B C} (R : A -> B -> Prop) (S : B -> C -> Prop) l m k : Forall2 R l m -> Forall2 S m k -> Forall2 (fun a c => exists b, R a b /\ S b c) l k.
Proof. intros F. revert k. induction F; intros k G; inversion G; subst; constructor; eauto. Qed.
Lemma Forall2_right {A B} (R : A -> B -> Prop) (Q : B -> Prop) l m : Forall2 R l m -> (forall a b, In a l -> R a b -> Q b) -> Forall Q m.
Proof.
  induction 1 as [|a b l m Hab F IH]; intros H; constructor; [apply (H a); [left; reflexivity|exact Hab]|].
  apply IH. intros x y Hx. apply H. right. exact Hx.
Qed.
Lemma Forall2_mono {A B} (R S : A -> B -> Prop) l m : (forall a b, R a b -> S a b) -> Forall2 R l m -> Forall2 S l m.
Proof. intros H. induction 1; constructor; auto. Qed.
Lemma from_cipher_eq P hc hk b : aes256_decrypt P (Some hc) None (Some hk) true = Val b -> exchange_set_create_from_cipher P (Some hc) (Some hk) = exchange_set_create_from_buffer P (Some b).
Proof. intros H. unfold exchange_set_create_from_cipher. rewrite H. reflexivity. Qed.
Lemma payload_cipher_eq P c k b : aes256_decrypt P (Some c) None (Some k) true = Val b -> payload_create_from_cipher P (Some c) (Some k) = lift (payload_create_from_buffer (Some b)).
Proof. intros H. unfold payload_create_from_cipher. rewrite H. reflexivity. Qed.
Lemma components_made P hk pk ek pl rs s v st p st' : ec_ok P -> gen_ok P -> sign_ok P -> ctr_ok P -> aead_ok P ->
  ck_cipher hk = AES256_GCM -> good_key pk -> ck_cipher pk = AES256_GCM -> engine_pair P ek -> engine_key P (id_key (ch_node s)) -> good_payload pl -> key_ids_ok rs ->
  packet_create_from_components P (Some hk) (Some pk) (Some ek) (Some pl) (Some rs) (Some s) v st = (Val p, st') ->
  exists xs hc pc, made P hk pk ek pl rs s v p xs hc pc.
Proof.
  intros EO GO SO CO AO HK GP PK PE EK GL KI H. apply components_steps in H.
  destruct H as (NE & V & items & hser & hc & pser & pc & sa & sb & sc & H1 & H2 & H3 & H4 & H5 & H6).
  apply make_exchanges_inv in H1. destruct H1 as (xs & -> & F). apply validate_inv in V. pose proof (Forall2_join _ _ _ _ _ V F) as J.
  assert (M : Forall2 (fun r x => (exists n n' st1 st2, r = Some n /\ nd_dev_id n' = nd_dev_id n /\ nd_keypair n' = nd_keypair n /\ ch_root (nd_chain n') = ch_root (nd_chain n) /\
     ch_node (nd_chain n') = ch_node (nd_chain n) /\ fst (node_verify_signature_chain P n) = true /\ exchange_create_with_packet_key P (Some s) (Some n') (Some ek) (Some pk) None v st1 = (Val x, st2))) rs xs).
  { revert J. apply Forall2_mono. intros r x (r' & (n & -> & VN & ->) & st1 & st2 & E). destruct (verify_fields P n) as (A & B & C & D).
    exists n, (snd (node_verify_signature_chain P n)), st1, st2. split; [reflexivity|]. split; [exact A|]. split; [exact B|]. split; [exact C|]. split; [exact D|]. split; [exact VN|exact E]. }
  assert (GX : Forall good_exchange xs /\ supported_version v).
  { split.
    - apply (Forall2_right _ _ _ _ M). intros r x I (n & n' & st1 & st2 & -> & _ & KK & _ & _ & _ & E).
      apply (exchange_made_good P s n' ek pk None v st1 x st2 CO AO E). intros kp K. apply (KI n); [exact I|congruence].
    - destruct M as [|r x rs xs (n & n' & st1 & st2 & -> & _ & KK & _ & _ & _ & E) M]; [congruence|].
      apply (exchange_made_good P s n' ek pk None v st1 x st2 CO AO E). intros kp K. apply (KI n); [left; reflexivity|congruence]. }
  destruct GX as [GX SV]. destruct (exchange_set_wire P {| xs_sender := ek; xs_items := map Some xs |} xs hser (engine_key_importable P ek EO GO (proj1 PE)) eq_refl GX H2) as (NH & _ & FX & PH). cbn [xs_sender xs_items] in PH.
  pose proof (payload_nonempty _ _ H4) as NP. destruct (encrypt_good P _ _ _ _ _ _ _ CO AO NH H3) as [GH _]. destruct (encrypt_good P _ _ _ _ _ _ _ CO AO NP H5) as [GC _].
  destruct (with_components_inv P hc pc _ v sc p st' EO GO SO EK GH GC H6) as (PV & PU & WH & WP & CN & VS & GS & DS).
  exists xs, hc, pc. constructor.
  - split; [rewrite PV; exact SV|]. split; [exact CN|]. split; [exact GS|exact DS].
  - exact PV.
  - exact VS.
  - exact PU.
  - exact (result_parse_ok _ GH WH).
  - exact (result_parse_ok _ GC WP).
  - apply encrypt_Val in H3. destruct H3 as (_ & _ & _ & _ & C & _). congruence.
  - rewrite (from_cipher_eq P hc hk hser); [exact PH|]. exact (decrypt_encrypt P _ _ _ _ _ _ _ true CO AO NH (fun _ => HK) H3).
  - rewrite (payload_cipher_eq P pc pk pser); [rewrite (payload_roundtrip _ _ GL H4); reflexivity|]. exact (decrypt_encrypt P _ _ _ _ _ _ _ true CO AO NP (fun _ => PK) H5).
  - apply Forall_forall. intros x I. rewrite Forall_forall in GX, FX. apply key_exchange_copy_ok; auto.
  - revert M. apply Forall2_mono. intros r x (n & n' & st1 & st2 & -> & A & B & C & D & VN & E). exists n, n', st1, st2.
    repeat (split; [first [reflexivity|assumption]|]). split; [|split; [exact VN|exact E]].
    apply packet_key_Val in E. destruct E as (ser & _ & _ & E). apply create_data_Val in E. destruct E as (kp & d & pr & k & t & _ & _ & _ & _ & _ & -> & _). cbn [kx_id]. congruence.
Qed.
(* parsing it again *)
Lemma parse_made P kg hk pk ek pl rs s v p xs hc pc s' i : made P hk pk ek pl rs s v p xs hc pc -> kg AES256_GCM s' = Some hk -> ek_pub (id_key (ch_node s')) = ek_pub (id_key (ch_node s)) ->
  parse_result_from_packet P kg (Some p) (Some i) (Some s') =
    match exchange_find (map Some xs) i with
    | Val x => Val (parse_success (Some {| xs_sender := public_key ek; xs_items := map Some xs |}) (Some x) (Some pc))
    | Null => Val (parse_failure SIG_VALID ERROR_NODE_NOT_FOUND)
    | UB => UB
    end.
Proof.
  intros M KG PB. unfold parse_result_from_packet. cbv zeta. replace (negb (curve_id _ =? curve_id _)) with false by (destruct (ek_curve _), (es_curve _); reflexivity).
  rewrite (verify_pub P _ _ _ _ PB), (md_verifies _ _ _ _ _ _ _ _ _ _ _ _ M). cbn [negb]. rewrite (md_unpack _ _ _ _ _ _ _ _ _ _ _ _ M). cbn [pq_header pq_payload].
  rewrite (md_header _ _ _ _ _ _ _ _ _ _ _ _ M). cbn [rtry rbind]. rewrite (md_gcm _ _ _ _ _ _ _ _ _ _ _ _ M), KG, (md_set _ _ _ _ _ _ _ _ _ _ _ _ M). cbn [rtry rbind exchange_set_find xs_items].
  destruct (exchange_find (map Some xs) i) as [x| |]; cbn [rtry rbind]; [|reflexivity|reflexivity]. rewrite (md_payload _ _ _ _ _ _ _ _ _ _ _ _ M). reflexivity.
Qed.
Lemma first_recipient P hk pk ek pl s v p hc pc xs l1 n l2 : made P hk pk ek pl (l1 ++ Some n :: l2) s v p xs hc pc ->
  (forall m, In (Some m) l1 -> id_identifier (ch_node (nd_chain m)) <> id_identifier (ch_node (nd_chain n))) ->
  exists x n' st1 st2, first_with (id_identifier (ch_node (nd_chain n))) xs x /\ nd_dev_id n' = nd_dev_id n /\ nd_keypair n' = nd_keypair n /\ ch_root (nd_chain n') = ch_root (nd_chain n) /\
    exchange_create_with_packet_key P (Some s) (Some n') (Some ek) (Some pk) None v st1 = (Val x, st2).
Proof.
  intros M D. pose proof (md_items _ _ _ _ _ _ _ _ _ _ _ _ M) as F. apply Forall2_app_inv_l in F. destruct F as (x1 & x2 & F1 & F2 & ->).
  inversion F2 as [|? x ? x2' (m & n' & st1 & st2 & EM & A & B & C & I & _ & E) _]; subst. apply Some_inj in EM. subst m. exists x, n', st1, st2. split; [|auto].
  exists x1, x2'. split; [reflexivity|]. split; [exact I|]. intros y Hy.
  assert (Q : Forall (fun z => kx_id z <> id_identifier (ch_node (nd_chain n))) x1).
  { apply (Forall2_right _ _ _ _ F1). intros r z Hr (m & ? & ? & ? & -> & _ & _ & _ & IZ & _). rewrite IZ. apply D, Hr. }
  rewrite Forall_forall in Q. apply Q, Hy.
Qed.
Lemma decode_eq P p h x pc dev rk rc s k pl : exchange_derive_packet_key P (Some s) (Some {| nd_dev_id := dev; nd_chain := rc; nd_keypair := Some {| kp_identifier := 0; kp_key := rk; kp_signature := None |};
     nd_status := S_UNKNOWN; nd_cache := None |}) (Some (xs_sender h)) (Some x) None (pt_version p) = Val k -> payload_create_from_cipher P (Some pc) (Some k) = Val pl ->
  decode_result_from_parse_result P p (Some (parse_success (Some h) (Some x) (Some pc))) dev (Some rk) rc (Some s) = Val (decode_success pl k).
Proof. intros A B. unfold decode_result_from_parse_result, parse_success. cbn [pa_err pa_status pa_set pa_exchange pa_payload]. rewrite A. cbn [rtry rbind]. rewrite B. reflexivity. Qed.
(* C40, one packet and one of its recipients *)
Lemma recipient_decodes P kg hk pk ek pl s v p hc pc xs l1 n l2 kp rk s1 s2 rc : ec_ok P -> gen_ok P -> ecdh_ok P -> ctr_ok P -> aead_ok P ->
  made P hk pk ek pl (l1 ++ Some n :: l2) s v p xs hc pc -> good_key pk -> engine_pair P ek ->
  (forall m, In (Some m) l1 -> id_identifier (ch_node (nd_chain m)) <> id_identifier (ch_node (nd_chain n))) ->
  kg AES256_GCM s1 = Some hk -> ek_pub (id_key (ch_node s1)) = ek_pub (id_key (ch_node s)) -> ek_pub (id_key (ch_root s2)) = ek_pub (id_key (ch_root s)) ->
  ek_pub (id_key (ch_root rc)) = ek_pub (id_key (ch_root (nd_chain n))) ->
  nd_keypair n = Some kp -> engine_pair P rk -> ek_pub (kp_key kp) = ek_pub rk ->
  exists r, parse_result_from_packet P kg (Some p) (Some (id_identifier (ch_node (nd_chain n)))) (Some s1) = Val r /\
    pa_status r = SIG_VALID /\ pa_err r = E_SUCCESS /\
    decode_result_from_parse_result P p (Some r) (nd_dev_id n) (Some rk) rc (Some s2) = Val (decode_success pl pk).
Proof.
  intros EO GO DO CO AO M GP PE D KG PB PB2 RR K PR KP. destruct (first_recipient P _ _ _ _ _ _ _ _ _ _ _ _ _ M D) as (x & n' & st1 & st2 & FW & A & B & C & E).
  eexists. split; [|split; [|split]].
  - rewrite (parse_made P kg _ _ _ _ _ _ _ _ _ _ _ s1 _ M KG PB), (exchange_find_first _ _ _ FW).
    pose proof (md_copy _ _ _ _ _ _ _ _ _ _ _ _ M) as CP. rewrite Forall_forall in CP. rewrite CP; [cbn [lift]; reflexivity|]. destruct FW as (y1 & y2 & -> & _). apply in_or_app; right; left; reflexivity.
  - reflexivity.
  - reflexivity.
  - apply decode_eq; [|exact (md_body _ _ _ _ _ _ _ _ _ _ _ _ M)]. rewrite (md_version _ _ _ _ _ _ _ _ _ _ _ _ M). cbn [xs_sender].
    apply (exchange_agrees P s n' ek pk None v st1 x st2 kp rk s2 _ {| kp_identifier := 0; kp_key := rk; kp_signature := None |} (public_key ek) EO GO DO CO AO E GP PE); cbn [nd_keypair nd_dev_id nd_chain kp_key public_key ek_pub]; congruence || assumption || reflexivity.
Qed.
(* C41 *)
Lemma stranger_not_found P kg hk pk ek pl rs s v p xs hc pc s' i : made P hk pk ek pl rs s v p xs hc pc -> kg AES256_GCM s' = Some hk -> ek_pub (id_key (ch_node s')) = ek_pub (id_key (ch_node s)) ->
  (forall m, In (Some m) rs -> id_identifier (ch_node (nd_chain m)) <> i) ->
  parse_result_from_packet P kg (Some p) (Some i) (Some s') = Val (parse_failure SIG_VALID ERROR_NODE_NOT_FOUND).
Proof.
  intros M KG PB D. rewrite (parse_made P kg _ _ _ _ _ _ _ _ _ _ _ s' i M KG PB), exchange_find_none; [reflexivity|].
  assert (Q : Forall (fun z => kx_id z <> i) xs).
  { apply (Forall2_right _ _ _ _ (md_items _ _ _ _ _ _ _ _ _ _ _ _ M)). intros r z Hr (m & ? & ? & ? & -> & _ & _ & _ & IZ & _). rewrite IZ. apply D, Hr. }
  rewrite Forall_forall in Q. exact Q.
Qed.

(* --- C39: what a parse result says *)
Lemma set_parse_items P b s : exchange_set_create_from_buffer P (Some b) = Val s -> exists l, xs_items s = map Some l /\ Forall (fun x => key_exchange_copy (Some x) = Some x) l.
Proof.
  unfold exchange_set_create_from_buffer. destruct (pb_exchange_set_unpack b) as [m|]; [|discriminate]. cbn [lift rbind]. unfold exchange_set_create_with_proto. cbv zeta.
  destruct (_ || _); [discriminate|]. destruct (negb _); [discriminate|]. intros H. apply rbind_Val in H. destruct H as (items & H1 & H). apply rbind_Val in H. destruct H as (k & _ & H).
  apply lift_Val' in H. apply Some_inj in H. subst s. cbn [xs_items]. destruct (parsed_items _ _ H1) as (l & -> & _). exists l. split; [reflexivity|exact (parsed_items_copy _ _ H1)].
Qed.
Lemma from_cipher_Val P r k s : exchange_set_create_from_cipher P (Some r) k = Val s -> exists hk b, k = Some hk /\ aes256_decrypt P (Some r) None (Some hk) true = Val b /\ exchange_set_create_from_buffer P (Some b) = Val s.
Proof. unfold exchange_set_create_from_cipher. destruct k as [hk|]; [|discriminate]. intros H. apply rbind_Val in H. destruct H as (b & A & B). eauto. Qed.
Lemma set_find_map P b s i : exchange_set_create_from_buffer P (Some b) = Val s -> exchange_set_find (Some s) (Some i) <> UB.
Proof.
  intros H. destruct (set_parse_items _ _ _ H) as (l & E & _). cbn [exchange_set_find]. rewrite E. destruct (find_first_exists i l) as [(x & F)|N].
  - rewrite (exchange_find_first _ _ _ F). destruct (key_exchange_copy _); discriminate.
  - rewrite (exchange_find_none _ _ N). discriminate.
Qed.
Lemma curves_equal (a b : curve) : negb (curve_id a =? curve_id b) = false.
Proof. destruct a, b. reflexivity. Qed.
Lemma rtry_Val {A} (r : res A) x : rtry r = Val x -> match x with Some v => r = Val v | None => r = Null end.
Proof. destruct r; intros H; try discriminate; apply Val_inj in H; subst x; reflexivity. Qed.
Lemma parse_valid P kg p i s r : parse_result_from_packet P kg (Some p) i (Some s) = Val r -> pa_status r = SIG_VALID -> sender_verifies P p s.
Proof.
  unfold parse_result_from_packet, sender_verifies. cbv zeta. rewrite curves_equal. destruct (ec_verify P _ _ _); [reflexivity|]. cbn [negb]. intros H. apply Val_inj in H. subst r. discriminate.
Qed.
Lemma parse_invalid P kg p i s : ~ sender_verifies P p s -> parse_result_from_packet P kg (Some p) i (Some s) = Val (parse_failure SIG_INVALID ERROR_MAC_INVALID).
Proof.
  unfold parse_result_from_packet, sender_verifies. cbv zeta. rewrite curves_equal. destruct (ec_verify P _ _ _); [intros H; destruct (H eq_refl)|reflexivity].
Qed.
(* the header of a successful parse *)
Lemma parse_success_inv P kg p i s r : parse_result_from_packet P kg (Some p) (Some i) (Some s) = Val r -> pa_err r = E_SUCCESS ->
  sender_verifies P p s /\ pa_status r = SIG_VALID /\ exists m hc hk b h l x pc,
    pb_packet_unpack (pt_content p) = Some m /\ cipher_result_from_buffer (Some (pq_header m)) = Val hc /\ kg (cr_cipher hc) s = Some hk /\
    aes256_decrypt P (Some hc) None (Some hk) true = Val b /\ exchange_set_create_from_buffer P (Some b) = Val h /\ xs_items h = map Some l /\ first_with i l x /\
    cipher_result_from_buffer (Some (pq_payload m)) = Val pc /\ r = parse_success (Some h) (Some x) (Some pc).
Proof.
  intros H S. assert (V : sender_verifies P p s).
  { destruct (ec_verify P (Some (pt_signature p)) (Some (id_key (ch_node s))) (Some (pt_content p))) eqn:E; [exact E|].
    rewrite parse_invalid in H by (unfold sender_verifies; congruence). apply Val_inj in H. subst r. discriminate. }
  split; [exact V|]. unfold parse_result_from_packet in H. cbv zeta in H. rewrite curves_equal, V in H. cbn [negb] in H.
  destruct (pb_packet_unpack (pt_content p)) as [m|] eqn:U; [|apply Val_inj in H; subst r; discriminate].
  apply rbind_Val in H. destruct H as (hc & H1 & H). apply rtry_Val in H1. destruct hc as [hc|]; [|apply Val_inj in H; subst r; discriminate].
  apply rbind_Val in H. destruct H as (h & H2 & H). apply rtry_Val in H2. destruct h as [h|]; [|apply Val_inj in H; subst r; discriminate].
  apply from_cipher_Val in H2. destruct H2 as (hk & b & K & D & Q).
  apply rbind_Val in H. destruct H as (fd & H3 & H). apply rbind_Val in H3. destruct H3 as (x & H3 & H4). apply Val_inj in H4. apply rtry_Val in H3.
  destruct x as [x|]; subst fd; [|apply Val_inj in H; subst r; discriminate]. apply rbind_Val in H. destruct H as (pc & H5 & H). apply rtry_Val in H5. destruct pc as [pc|]; [|apply Val_inj in H; subst r; discriminate].
  apply Val_inj in H. subst r. destruct (set_parse_items _ _ _ Q) as (l & EL & CP). cbn [exchange_set_find] in H3. rewrite EL in H3. apply find_Val in H3. destruct H3 as (y & F & C).
  assert (E : y = x). { rewrite Forall_forall in CP. destruct F as (l1 & l2 & F1 & _). rewrite CP in C by (rewrite F1; apply in_or_app; right; left; reflexivity). apply Some_inj in C. exact C. }
  subst y. split; [reflexivity|]. exists m, hc, hk, b, h, l, x, pc. repeat (split; [first [assumption|reflexivity]|]). reflexivity.
Qed.
Lemma parse_safe P kg p i s : (forall c k, kg c s = Some k -> good_key k) -> parse_result_from_packet P kg p i (Some s) <> UB.
Proof.
  intros KG. unfold parse_result_from_packet. destruct p as [p|]; [|discriminate]. cbv zeta. destruct (negb _); [discriminate|]. destruct (negb _); [discriminate|].
  destruct (pb_packet_unpack _) as [m|]; [|discriminate]. destruct (cipher_result_from_buffer (Some (pq_header m))) as [hc| |] eqn:H1; [|discriminate|destruct (result_parse_safe _ H1)]. cbn [rtry rbind].
  destruct (exchange_set_create_from_cipher P (Some hc) (kg (cr_cipher hc) s)) as [h| |] eqn:H2; cbn [rtry rbind]; [|discriminate|].
  - apply from_cipher_Val in H2. destruct H2 as (hk & b & K & D & Q). destruct i as [i|].
    + destruct (exchange_set_find (Some h) (Some i)) as [x| |] eqn:F; cbn [rtry rbind]; [|discriminate|destruct (set_find_map _ _ _ _ Q F)].
      destruct (cipher_result_from_buffer (Some (pq_payload m))) as [pc| |] eqn:H3; [discriminate|discriminate|destruct (result_parse_safe _ H3)].
    + cbn [rbind]. destruct (cipher_result_from_buffer (Some (pq_payload m))) as [pc| |] eqn:H3; [discriminate|discriminate|destruct (result_parse_safe _ H3)].
  - exfalso. unfold exchange_set_create_from_cipher in H2. destruct (kg (cr_cipher hc) s) as [hk|] eqn:K; [|discriminate].
    destruct (aes256_decrypt P (Some hc) None (Some hk) true) as [b| |] eqn:D; [|discriminate|].
    + cbn [rbind] in H2. revert H2. unfold exchange_set_create_from_buffer. destruct (pb_exchange_set_unpack b) as [w|]; [|discriminate]. cbn [lift rbind]. unfold exchange_set_create_with_proto. cbv zeta.
      destruct (_ || _); [discriminate|]. destruct (negb _); [discriminate|].
      assert (IS : forall l, exchange_items_from_proto l <> UB).
      { induction l as [|a l IH]; [discriminate|]. cbn [exchange_items_from_proto]. unfold key_exchange_create_with_proto. destruct (_ || _); [discriminate|].
        destruct (cipher_result_from_buffer (buffer_create (px_data a))) as [t| |] eqn:T; [|discriminate|destruct (result_parse_safe _ T)]. cbn [rbind]. destruct (buffer_create (px_id a)); [|discriminate]. cbn [lift rbind key_exchange_create].
        destruct (exchange_items_from_proto l) as [z| |]; [discriminate|discriminate|destruct (IH eq_refl)]. }
      destruct (exchange_items_from_proto (py_exchanges w)) as [z| |] eqn:Z; [|discriminate|destruct (IS _ Z)]. cbn [rbind]. destruct (ec_key_import P (Some (py_sender w)) false); discriminate.
    + apply result_parse_inv in H1. destruct H1 as (G & _). exact (decrypt_safe P hc None hk true (KG _ _ K) G D).
Qed.

(* --- C42 *)
Lemma node_after_trace P : forall ops n, In (node_after P n ops, Some (fst (node_verify_signature_chain P (node_after P n ops)))) (node_trace P n (ops ++ [NVerify])).
Proof.
  induction ops as [|o ops IH]; intros n.
  - cbn [app node_trace node_step node_after]. destruct (node_verify_signature_chain P n) as [b n']. left. reflexivity.
  - cbn [app node_trace node_after]. destruct (node_step P o n) as [a n']. right. apply IH.
Qed.
Lemma lawful_verifies P m : lawful_node P m -> fst (node_verify_signature_chain P m) = true -> node_truth P m = true.
Proof.
  intros (d & root & node & kp & c & n & ops & C & N & S & <- & R & CF) V.
  assert (S' : Forall same_chain_op (ops ++ [NVerify])) by (apply Forall_app; split; [exact S|constructor; [exact I|constructor]]).
  pose proof (node_history P d root node kp c n (ops ++ [NVerify]) C N S' R CF) as A. rewrite <- V. symmetry. exact (A _ _ (node_after_trace P ops n)).
Qed.
Lemma components_verified P hk pk ek pl rs s v st p st' : packet_create_from_components P hk pk ek pl rs s v st = (Val p, st') ->
  exists l, rs = Some l /\ l <> [] /\ forall r, In r l -> exists n, r = Some n /\ fst (node_verify_signature_chain P n) = true.
Proof.
  unfold packet_create_from_components. destruct hk as [hk|]; [|discriminate]. destruct pk as [pk|]; [|discriminate]. destruct pl as [pl|]; [|discriminate]. destruct rs as [rs|]; [|discriminate]. destruct s as [s|]; [|discriminate].
  destruct (N.of_nat (length rs) =? 0) eqn:L; [intros H; destruct (mres_Null _ _ _ H)|]. cbv zeta. destruct (fst (recipients_validate P rs)) eqn:V; cbn [negb]; [|intros H; destruct (mres_Null _ _ _ H)]. intros _.
  exists rs. split; [reflexivity|]. split; [intros ->; discriminate|]. intros r I. apply validate_inv in V. clear L. revert I. induction V as [|a b l m (n & E & T & _) F IH]; intros I; [destruct I|].
  destruct I as [<-|I]; [eauto|exact (IH I)].
Qed.

(* --- the statements of Props/PropsMessage.v *)
Lemma wire_roundtrip p b : good_packet p -> packet_serialize (Some p) = Some b -> b = packet_wire p /\ packet_create_from_buffer (Some b) = Val p.
Proof.
  intros G H. destruct (packet_serialize_inv p b (proj1 (proj2 (proj2 G))) H) as [-> L]. split; [reflexivity|]. apply packet_parse_ok; assumption.
Qed.
Lemma wire_rejects b0 b1 t : ~ supported_version (b2n b0) \/ (if b2n b0 =? 2 then b2n b1 mod 16 else b2n b1) <> 0 \/ blen t <= 143 -> packet_create_from_buffer (Some (b0 :: b1 :: t)) = Null.
Proof.
  intros H. destruct (packet_create_from_buffer (Some (b0 :: b1 :: t))) as [p| |] eqn:E; [|reflexivity|destruct (packet_parse_safe _ E)]. exfalso.
  apply packet_parse_inv in E. destruct E as (c0 & c1 & sg & EQ & V0 & SV & B & NE & LS & _). injection EQ as -> -> ->. rewrite <- V0 in *.
  change (N.land (b2n c1) 15) with (N.land (b2n c1) (N.ones 4)) in B. rewrite N.land_ones in B. change (2 ^ 4) with 16 in B.
  destruct H as [H|[H|H]]; [exact (H SV)|exact (H B)|]. rewrite blen_app in H. pose proof (blen_pos _ NE). lia.
Qed.
Lemma same_content b b' p p' s (u u' sg : bytes) P : packet_create_from_buffer (Some b) = Val p -> packet_create_from_buffer (Some b') = Val p' -> b = u ++ sg -> b' = u' ++ sg -> blen sg = 143 ->
  sender_verifies P p s -> sender_verifies P p' s -> no_forgery P (pt_signature p) (id_key (ch_node s)) (pt_content p) (pt_content p') ->
  exists a a' c c' t, b = a :: c :: t /\ b' = a' :: c' :: t /\ (b2n a <> 2 -> c = x00) /\ (b2n a = 2 -> b2n c mod 16 = 0).
Proof.
  intros H H' E E' L V V' NF. apply packet_parse_inv in H, H'. destruct H as (a & c & g & B & A & _ & T & _ & LG & S & _). destruct H' as (a' & c' & g' & B' & A' & _ & T' & _ & LG' & S' & _).
  assert (G : forall (w x y z : bytes), w ++ y = x ++ z -> blen y = blen z -> y = z).
  { intros w x y z Q LL. assert (LW : length w = length x) by (apply (f_equal (@length _)) in Q; rewrite !app_length in Q; unfold blen in LL; lia). apply (app_inj_length_l' w x y z Q LW). }
  assert (X : g = sg) by (apply (G (a :: c :: pt_content p) u); [cbn [app]; congruence|lia]). assert (X' : g' = sg) by (apply (G (a' :: c' :: pt_content p') u'); [cbn [app]; congruence|lia]).
  subst g g'. rewrite S in S'. apply Val_inj in S'. unfold sender_verifies in V'. rewrite <- S' in V'. pose proof (NF V V') as EQ. rewrite <- EQ in B'.
  exists a, a', c, c', (pt_content p ++ sg). split; [exact B|]. split; [exact B'|]. rewrite <- A in T. change 15 with (N.ones 4) in T. rewrite N.land_ones in T. change (2 ^ 4) with 16 in T. split; intros Q.
  - replace (b2n a =? 2) with false in T by lia. apply b2n_inj. rewrite T. reflexivity.
  - replace (b2n a =? 2) with true in T by lia. exact T.
Qed.
Section Encode.
Context (P : prims) (kg : cipher -> chain -> option cipher_key).
Context (hk pk : cipher_key) (ek : ec_key) (pl : payload) (rs : list (option node)) (s : chain) (v : N) (st st' : nat) (p : packet) (b : bytes).
Context (EO : ec_ok P) (GO : gen_ok P) (DO : ecdh_ok P) (SO : sign_ok P) (CO : ctr_ok P) (AO : aead_ok P).
Context (HK : ck_cipher hk = AES256_GCM) (GP : good_key pk) (PK : ck_cipher pk = AES256_GCM) (PE : engine_pair P ek) (EK : engine_key P (id_key (ch_node s))).
Context (GL : good_payload pl) (KI : key_ids_ok rs).
Context (H : packet_create_from_components P (Some hk) (Some pk) (Some ek) (Some pl) (Some rs) (Some s) v st = (Val p, st')).
Context (W : packet_serialize (Some p) = Some b).
Lemma encoded_decodes n kp rk s1 s2 rc : distinct_recipients rs -> In (Some n) rs -> nd_keypair n = Some kp -> engine_pair P rk -> ek_pub rk = ek_pub (kp_key kp) ->
  kg AES256_GCM s1 = Some hk -> same_public s1 s -> same_public s2 s -> same_public rc (nd_chain n) ->
  exists q r, packet_create_from_buffer (Some b) = Val q /\ parse_result_from_packet P kg (Some q) (Some (node_id n)) (Some s1) = Val r /\ pa_status r = SIG_VALID /\ pa_err r = E_SUCCESS /\
    decode_result_from_parse_result P q (Some r) (nd_dev_id n) (Some rk) rc (Some s2) = Val (decode_success pl pk).
Proof.
  intros D I K PR KP KG S1 S2 SR. destruct (components_made P hk pk ek pl rs s v st p st' EO GO SO CO AO HK GP PK PE EK GL KI H) as (xs & hc & pc & M).
  exists p. destruct (in_split _ _ I) as (l1 & l2 & E).
  assert (PUB : forall x y, public_key x = public_key y -> ek_pub x = ek_pub y) by (intros x y Q; exact (f_equal ek_pub Q)).
  destruct S1 as (_ & _ & S1r & S1n). destruct S2 as (_ & _ & S2r & _). destruct SR as (_ & _ & SRr & _). pose proof M as M'. rewrite E in M'.
  destruct (recipient_decodes P kg hk pk ek pl s v p hc pc xs l1 n l2 kp rk s1 s2 rc EO GO DO CO AO M' GP PE (fun m J => D l1 n l2 m E J) KG (PUB _ _ S1n) (PUB _ _ S2r) (PUB _ _ SRr) K PR (eq_sym KP)) as (r & A & B & C & F).
  exists r. split; [apply (wire_roundtrip p b (md_wire _ _ _ _ _ _ _ _ _ _ _ _ M) W)|]. auto.
Qed.
Lemma encoded_stranger i s1 : (forall n, In (Some n) rs -> node_id n <> i) -> kg AES256_GCM s1 = Some hk -> same_public s1 s ->
  exists q r, packet_create_from_buffer (Some b) = Val q /\ parse_result_from_packet P kg (Some q) (Some i) (Some s1) = Val r /\ pa_err r = ERROR_NODE_NOT_FOUND /\
    pa_exchange r = None /\ pa_set r = None /\ pa_payload r = None.
Proof.
  intros D KG (_ & _ & _ & S1). destruct (components_made P hk pk ek pl rs s v st p st' EO GO SO CO AO HK GP PK PE EK GL KI H) as (xs & hc & pc & M).
  exists p. eexists. split; [apply (wire_roundtrip p b (md_wire _ _ _ _ _ _ _ _ _ _ _ _ M) W)|]. split; [exact (stranger_not_found P kg hk pk ek pl rs s v p xs hc pc s1 i M KG (f_equal ek_pub S1) D)|]. cbn. auto.
Qed.
End Encode.
Definition encoded_decodes_all P kg hk pk ek pl rs s v st st' p b EO GO DO SO CO AO HK GP PK PE EK GL KI H W :=
  encoded_decodes P kg hk pk ek pl rs s v st st' p b EO GO DO SO CO AO HK GP PK PE EK GL KI H W.
Lemma bad_signature P kg p i s : ~ sender_verifies P p s ->
  exists r, parse_result_from_packet P kg (Some p) i (Some s) = Val r /\ pa_status r = SIG_INVALID /\ pa_err r <> E_SUCCESS /\ pa_exchange r = None /\ pa_set r = None /\ pa_payload r = None.
Proof. intros H. exists (parse_failure SIG_INVALID ERROR_MAC_INVALID). split; [exact (parse_invalid P kg p i s H)|]. cbn. repeat (split; [first [reflexivity|discriminate]|]). reflexivity. Qed.
Lemma success_authenticated P kg p i s r : (forall c k, kg c s = Some k -> good_key k) ->
  parse_result_from_packet P kg (Some p) (Some i) (Some s) = Val r -> pa_err r = E_SUCCESS ->
  sender_verifies P p s /\ pa_status r = SIG_VALID /\
  exists hc hk plain set l x, kg AES256_GCM s = Some hk /\ opened P hc (ck_data hk) [] plain /\ exchange_set_create_from_buffer P (Some plain) = Val set /\ pa_set r = Some set /\ full_set set l /\
    pa_exchange r = Some x /\ kx_id x = i /\ first_with i l x.
Proof.
  intros KG H S. apply parse_success_inv in H; [|exact S]. destruct H as (V & ST & m & hc & hk & b & h & l & x & pc & U & PH & K & D & Q & L & F & PP & R).
  split; [exact V|]. split; [exact ST|]. apply result_parse_inv in PH. destruct PH as (G & _). destruct (decrypt_opened P hc None hk b (KG _ _ K) G ltac:(discriminate) D) as (_ & O).
  exists hc, hk, b, h, l, x. split; [destruct O as [O _]; rewrite O in K; exact K|]. split; [exact O|]. split; [exact Q|]. subst r. split; [reflexivity|]. split; [exact L|]. split; [reflexivity|].
  split; [|exact F]. destruct F as (l1 & l2 & _ & F & _). exact F.
Qed.
Lemma recipients_verified P hk pk ek pl l s v st p st' : (forall n, In (Some n) l -> lawful_node P n) ->
  packet_create_from_components P hk pk ek pl (Some l) s v st = (Val p, st') -> l <> [] /\ forall r, In r l -> exists n, r = Some n /\ node_truth P n = true.
Proof.
  intros L H. apply components_verified in H. destruct H as (l' & E & NE & F). apply Some_inj in E. subst l'. split; [exact NE|]. intros r I. destruct (F r I) as (n & -> & V).
  exists n. split; [reflexivity|]. apply lawful_verifies; [apply L, I|exact V].
Qed.
Lemma fresh_recipients P hk pk ek pl l s v st p st' : (forall n, In (Some n) l -> nd_cache n = None /\ ch_cache (nd_chain n) = None) ->
  packet_create_from_components P hk pk ek pl (Some l) s v st = (Val p, st') -> l <> [] /\ forall r, In r l -> exists n, r = Some n /\ node_truth P n = true.
Proof.
  intros L H. apply components_verified in H. destruct H as (l' & E & NE & F). apply Some_inj in E. subst l'. split; [exact NE|]. intros r I. destruct (F r I) as (n & -> & V).
  exists n. split; [reflexivity|]. destruct (L n I) as [C1 C2]. revert V. unfold node_verify_signature_chain, node_has_valid_cache. rewrite C1. cbv zeta.
  assert (FR : fresh_inv P (nd_chain n)) by (intros Q; rewrite C2 in Q; destruct (Q eq_refl)).
  destruct (validate_fresh P (nd_chain n) FR) as [_ T]. pose proof (validate_fields P (nd_chain n)) as (_ & EN & _). rewrite node_truth_eq, <- T. destruct (fst (chain_validate P (nd_chain n))) eqn:TV; cbn [negb fst]; [|discriminate].
  rewrite EN. unfold keypair_verify_owner, kp_truth. cbn [andb]. unfold node_update_status_cache, node_set. cbn [nd_status nd_chain].
  destruct (nd_keypair n) as [k|]; [|discriminate]. destruct (ec_verify P (kp_signature k) _ _) eqn:W; [reflexivity|]. intros Q. revert Q. destruct (kp_signature k); rewrite ?W; try discriminate.
Qed.
Lemma set_find_first s l i x : full_set s l -> first_with i l x -> good_exchange x -> exchange_fits x -> exchange_set_find (Some s) (Some i) = Val x.
Proof. intros E F G W. cbn [exchange_set_find]. rewrite E, (exchange_find_first _ _ _ F), key_exchange_copy_ok by assumption. reflexivity. Qed.
Lemma set_find_none s l i : full_set s l -> (forall y, In y l -> kx_id y <> i) -> exchange_set_find (Some s) (Some i) = Null.
Proof. intros E F. cbn [exchange_set_find]. rewrite E. apply exchange_find_none, F. Qed.
