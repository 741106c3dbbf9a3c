(* Handshakes: what a packet can do to them. *)
From Coq Require Import ZifyBool ZifyNat ZifyN.
From Verif.Base Require Import Bytes Monad.
From Verif.Model Require Import Buffer Cipher Ecdsa Kdf Prims Engine Identity Proto Stream TransportPacket EcdhCipher Handshake Transport.
From Verif.Spec Require Import BufferSpec CodecSpec EngineSpec IdentitySpec StreamSpec TransportSpec HandshakeSpec.
From Verif.Proofs Require Import BytesFacts BufferFacts BufferProps CodecFacts EngineFacts ProtoFacts IdentityFacts CacheFacts TransportPacketFacts StreamFacts.
Ltac Zify.zify_post_hook ::= Z.div_mod_to_equations.
Local Open Scope N_scope.

Lemma htry_Val {A} (m : M A) h k s h' p s' : htry m h k s = (Val (h', p), s') ->
  (hs_status h' = H_FAILED /\ p = None) \/ exists a s1, m s = (Val a, s1) /\ k a s1 = (Val (h', p), s').
Proof.
  unfold htry. intros H. apply mbind_Val in H. destruct H as (o & s1 & Ho & H). apply mtry_Val in Ho. destruct o as [a|].
  - right. eauto.
  - left. unfold hfail, mret, mres in H. apply pair_equal_spec in H. destruct H as [H _]. apply Val_inj in H. apply pair_equal_spec in H.
    destruct H as [<- <-]. split; reflexivity.
Qed.
Lemma hfail_Val h s h' p s' : hfail h s = (Val (h', p), s') -> hs_status h' = H_FAILED /\ p = None.
Proof.
  unfold hfail, mret, mres. intros H. apply pair_equal_spec in H. destruct H as [H _]. apply Val_inj in H. apply pair_equal_spec in H.
  destruct H as [<- <-]. split; reflexivity.
Qed.
Lemma mret_Val {A} (a : A) s b s' : mret a s = (Val b, s') -> b = a /\ s' = s.
Proof. unfold mret, mres. intros H. apply pair_equal_spec in H. destruct H as [H ->]. apply Val_inj in H. auto. Qed.

(* the verified identity of a packet's sender *)
Definition sender_chain (P : prims) (h : handshake) (pkt : tpacket) (c c' : chain) (parsed : bool) : Prop :=
  (if parsed then hs_remote h = None /\ exists m, chain_create_from_proto P (Some m) = Val c else hs_remote h = Some c) /\
  fst (fst (tpacket_verify P pkt c)) = Val true /\ c' = snd (tpacket_verify P pkt c).
Lemma remote_identity_Val P h pkt m h' : process_remote_identity P h pkt m = Val (true, h') ->
  exists c c' parsed, sender_chain P h pkt c c' parsed /\
    h' = set_remote (Some c') (if parsed : bool then set_hstatus H_PENDING_VERIFICATION (set_remote (Some c) h) else h) /\
    (parsed = true -> exists m', m = Some m' /\ chain_create_from_proto P (Some m') = Val c).
Proof.
  unfold process_remote_identity. intros H. apply rbind_Val in H. destruct H as ([o h1] & H1 & H).
  destruct o as [c|]; [|discriminate].
  assert (K : exists parsed : bool, (if parsed then hs_remote h = None /\ exists m', chain_create_from_proto P (Some m') = Val c else hs_remote h = Some c) /\
    h1 = (if parsed then set_hstatus H_PENDING_VERIFICATION (set_remote (Some c) h) else h) /\
    (parsed = true -> exists m', m = Some m' /\ chain_create_from_proto P (Some m') = Val c)).
  { destruct (hs_remote h) as [d|] eqn:R.
    - apply Val_inj in H1. apply pair_equal_spec in H1. destruct H1 as [E ->]. exists false. repeat split; congruence.
    - apply rbind_Val in H1. destruct H1 as (o & Ho & H1). apply Val_inj in H1. apply pair_equal_spec in H1. destruct H1 as [-> <-].
      exists true. destruct m as [m|]; [|discriminate]. unfold rtry in Ho. destruct (chain_create_from_proto P (Some m)) as [d| |] eqn:C; try discriminate.
      apply Val_inj in Ho. apply Some_inj in Ho. subst d. split; [eauto|]. split; [reflexivity|]. intros _. eauto. }
  destruct K as (parsed & A & -> & B).
  destruct (tpacket_verify P pkt c) as [[v p'] c'] eqn:V. apply rbind_Val in H. destruct H as (b & -> & H). apply Val_inj in H. apply pair_equal_spec in H.
  destruct H as [-> <-]. exists c, c', parsed. split; [|split; [reflexivity|exact B]]. split; [exact A|]. rewrite V. split; reflexivity.
Qed.

(* what is left unchanged *)
Definition same_setup (h h' : handshake) : Prop := hs_local h' = hs_local h /\ hs_evo h' = hs_evo h /\ hs_pending h' = hs_pending h /\ hs_initiator h' = hs_initiator h.
Lemma build_signed_Val P h m num s h' p s' : build_signed_packet P h m num s = (Val (h', p), s') ->
  (hs_status h' = H_FAILED /\ p = None) \/
  exists pkt q s1, handshake_to_packet m = Some pkt /\ tpacket_sign P pkt (hs_local h) s1 = (Val (true, q), s') /\ p = Some q /\ h' = record_packet num (tp_network q) h.
Proof.
  unfold build_signed_packet. intros H. apply htry_Val in H. destruct H as [H|(pkt & s1 & Hp & H)]; [left; exact H|].
  apply mlift_Val in Hp. destruct Hp as [Hp ->]. apply mbind_Val in H. destruct H as ([b q] & s2 & Hs & H). destruct b.
  - apply mret_Val in H. destruct H as [H ->]. apply pair_equal_spec in H. destruct H as [-> ->]. right. exists pkt, q, s. auto.
  - left. apply hfail_Val in H. exact H.
Qed.

Lemma process_response_Val P h pkt s h' p s' : process_response P h pkt s = (Val (h', p), s') ->
  (hs_status h' = H_FAILED /\ p = None) \/
  p = None /\ exists r enc pub obj lk rem c c' parsed e kdf buf m k,
    handshake_from_packet pkt = Some (PResponse r) /\ pr_data r = Some enc /\ pr_pubkey r = Some pub /\
    rbind (lift (buffer_create enc)) (fun b => cipher_result_from_buffer (Some b)) = Val obj /\
    ec_key_copy (hs_ephemeral h) = Some lk /\
    (match buffer_create pub with Some x => ec_key_import P (Some x) false | None => None end) = Some rem /\
    sender_chain P h pkt c c' parsed /\
    (parsed = true -> exists m', pr_chain r = Some m' /\ chain_create_from_proto P (Some m') = Val c) /\
    hs_ephemeral h = Some e /\
    (let h1 := set_remote (Some c') (if parsed : bool then set_hstatus H_PENDING_VERIFICATION (set_remote (Some c) (record_packet 1 (tp_network pkt) h)) else record_packet 1 (tp_network pkt) h) in
     handshake_kdf_meta P h1 e rem = Some kdf /\
     ecdh_decipher P {| ex_local := lk; ex_cipher := cr_cipher obj |} (Some obj) (Some rem) (Some kdf) = Val buf /\
     pb_response_data_unpack buf = Some (Some m) /\ root_key_from_proto m = Some k /\
     h' = match hs_status h1 with H_IN_PROGRESS => set_hstatus H_PENDING_FINALIZATION (set_root (Some k) h1) | _ => set_root (Some k) h1 end).
Proof.
  unfold process_response. intros H. apply htry_Val in H. destruct H as [H|(data & s1 & Hd & H)]; [left; exact H|].
  apply mlift_Val in Hd. destruct Hd as [Hd ->]. destruct data as [|sd|r]; [left; apply hfail_Val in H; exact H|discriminate|].
  destruct (pr_data r) as [enc|] eqn:Ed; [|left; apply hfail_Val in H; exact H].
  destruct (pr_pubkey r) as [pub|] eqn:Ep; [|left; apply hfail_Val in H; exact H].
  match type of H with (if ?b then _ else _) _ = _ => destruct b end; [left; apply hfail_Val in H; exact H|].
  apply htry_Val in H. destruct H as [H|(obj & s1 & Ho & H)]; [left; exact H|]. apply mres_Val in Ho. destruct Ho as [Ho ->].
  apply htry_Val in H. destruct H as [H|(lk & s1 & Hl & H)]; [left; exact H|]. apply mlift_Val in Hl. destruct Hl as [Hl ->].
  apply htry_Val in H. destruct H as [H|(cx & s1 & Hc & H)]; [left; exact H|]. apply mlift_Val in Hc. destruct Hc as [Hc ->].
  apply htry_Val in H. destruct H as [H|(rem & s1 & Hr & H)]; [left; exact H|]. apply mlift_Val in Hr. destruct Hr as [Hr ->].
  apply mbind_Val in H. destruct H as ([b h1] & s1 & Hv & H). apply mres_Val in Hv. destruct Hv as [Hv ->].
  destruct b; [|left; apply hfail_Val in H; exact H].
  apply remote_identity_Val in Hv. destruct Hv as (c & c' & parsed & SC & -> & PP).
  apply htry_Val in H. destruct H as [H|(kdf & s1 & Hk & H)]; [left; exact H|]. apply mlift_Val in Hk. destruct Hk as [Hk ->].
  apply htry_Val in H. destruct H as [H|(buf & s1 & Hb & H)]; [left; exact H|]. apply mres_Val in Hb. destruct Hb as [Hb ->].
  apply htry_Val in H. destruct H as [H|(m & s1 & Hm & H)]; [left; exact H|]. apply mlift_Val in Hm. destruct Hm as [Hm ->].
  apply htry_Val in H. destruct H as [H|(k & s1 & Hrk & H)]; [left; exact H|]. apply mlift_Val in Hrk. destruct Hrk as [Hrk ->].
  destruct m as [m|]; [|discriminate].
  apply mret_Val in H. destruct H as [H ->]. apply pair_equal_spec in H. destruct H as [-> ->].
  right. split; [reflexivity|].
  assert (Ee : exists e, hs_ephemeral h = Some e) by (change (ec_key_copy (hs_ephemeral h) = Some lk) in Hl; destruct (hs_ephemeral h); [eauto|discriminate]).
  destruct Ee as [e Ee]. exists r, enc, pub, obj, lk, rem, c, c', parsed, e, kdf, buf, m, k.
  do 7 (split; [assumption || exact Hl || exact Hr|]). split; [exact PP|]. split; [exact Ee|]. cbv zeta.
  cbn [ecdh_ctx_create_key] in Hc. apply Some_inj in Hc. subst cx.
  assert (Ex : forall x, hs_ephemeral (set_remote (Some c') (if parsed then set_hstatus H_PENDING_VERIFICATION (set_remote (Some x) (record_packet 1 (tp_network pkt) h)) else record_packet 1 (tp_network pkt) h)) = hs_ephemeral h)
    by (intros x; destruct parsed; reflexivity).
  rewrite Ex, Ee in Hk. split; [exact Hk|]. split; [exact Hb|]. split; [exact Hm|]. split; [exact Hrk|].
  cbn [hs_status set_root]. destruct (hs_status _); reflexivity.
Qed.

Lemma process_initial_Val P h pkt s h' p s' : process_initial P h pkt s = (Val (h', p), s') ->
  (hs_status h' = H_FAILED /\ p = None) \/
  exists sd pub required c c' parsed eph ctx k ser kdf r rb response q q' s1 s2 s3 s4 s5 s6 s7,
    handshake_from_packet pkt = Some (PSeed sd) /\ ps_pubkey sd = Some pub /\ ps_required sd = Some required /\
    sender_chain P h pkt c c' parsed /\
    (parsed = true -> exists m', ps_chain sd = Some m' /\ chain_create_from_proto P (Some m') = Val c) /\
    (match buffer_create pub with Some x => ec_key_import P (Some x) false | None => None end) = Some eph /\
    ecdh_ctx_create P (ek_curve eph) AES256_GCM s1 = (Val ctx, s2) /\
    root_key_create_random P AES256_GCM (hs_evo h) (hs_evo h) s2 = (Val k, s3) /\
    pack_buffer (pb_response_data_pack (Some (root_key_to_proto k))) = Some ser /\
    (let h1 := set_root (Some k) (set_remote (Some c') (if parsed : bool then set_hstatus H_PENDING_VERIFICATION (set_remote (Some c) (record_packet 0 (tp_network pkt) h)) else record_packet 0 (tp_network pkt) h)) in
     handshake_kdf_meta P h1 (ex_local ctx) eph = Some kdf /\
     ecdh_cipher P ctx (Some ser) (Some eph) (Some kdf) s4 = (Val r, s5) /\
     cipher_result_serialize (Some r) = Some rb /\
     response_create (ek_pub (ex_local ctx)) rb (if required then Some (hs_local h) else None) = Some response /\
     handshake_to_packet (PResponse response) = Some q /\ tpacket_sign P q (hs_local h) s6 = (Val (true, q'), s7) /\ p = Some q' /\
     h' = match hs_status h1 with H_UNKNOWN => set_hstatus H_PENDING_FINALIZATION (record_packet 1 (tp_network q') h1) | _ => record_packet 1 (tp_network q') h1 end).
Proof.
  unfold process_initial. intros H. apply htry_Val in H. destruct H as [H|(data & s1 & Hd & H)]; [left; exact H|].
  apply mlift_Val in Hd. destruct Hd as [Hd ->]. destruct data as [|sd|r]; [left; apply hfail_Val in H; exact H| |discriminate].
  destruct (ps_pubkey sd) as [pub|] eqn:Ep; [|left; apply hfail_Val in H; exact H].
  destruct (ps_required sd) as [required|] eqn:Er; [|left; apply hfail_Val in H; exact H].
  apply mbind_Val in H. destruct H as ([b h1] & s1 & Hv & H). apply mres_Val in Hv. destruct Hv as [Hv ->].
  destruct b; [|left; apply hfail_Val in H; exact H].
  apply remote_identity_Val in Hv. destruct Hv as (c & c' & parsed & SC & -> & PP).
  apply htry_Val in H. destruct H as [H|(eph & s1 & He & H)]; [left; exact H|]. apply mlift_Val in He. destruct He as [He ->].
  apply htry_Val in H. destruct H as [H|(ctx & s1 & Hc & H)]; [left; exact H|].
  apply htry_Val in H. destruct H as [H|(k & s2 & Hk & H)]; [left; exact H|].
  cbv zeta in H.
  apply htry_Val in H. destruct H as [H|(ser & s3 & Hs & H)]; [left; exact H|]. apply mlift_Val in Hs. destruct Hs as [Hs ->].
  apply htry_Val in H. destruct H as [H|(r & s3 & Hr & H)]; [left; exact H|].
  apply htry_Val in H. destruct H as [H|(rb & s4 & Hb & H)]; [left; exact H|]. apply mlift_Val in Hb. destruct Hb as [Hb ->].
  apply htry_Val in H. destruct H as [H|(response & s4 & Hp & H)]; [left; exact H|]. apply mlift_Val in Hp. destruct Hp as [Hp ->].
  apply mbind_Val in H. destruct H as ([h2 o] & s4 & Hb2 & H). apply build_signed_Val in Hb2.
  destruct Hb2 as [[Hf ->]|(q & q' & s5 & Hq & Hsg & -> & ->)]; [left; apply hfail_Val in H; exact H|].
  apply mret_Val in H. destruct H as [H ->]. apply pair_equal_spec in H. destruct H as [-> ->].
  set (hb := if parsed then _ else _) in *.
  assert (El : hs_local hb = hs_local h) by (subst hb; destruct parsed; reflexivity).
  assert (Ee : hs_evo hb = hs_evo h) by (subst hb; destruct parsed; reflexivity).
  destruct (handshake_kdf_meta P _ (ex_local ctx) eph) as [kdf|] eqn:Hkdf in Hr; [|discriminate].
  right. exists sd, pub, required, c, c', parsed, eph, ctx, k, ser, kdf, r, rb, response, q, q', s, s1, s2, s2, s3, s5, s4.
  cbn [hs_evo hs_local set_root set_remote] in *. rewrite Ee in Hk. rewrite El in Hp, Hsg.
  do 9 (split; [assumption|]). cbv zeta. do 7 (split; [first [assumption|reflexivity]|]). cbn [hs_status record_packet set_root set_remote].
  fold hb. destruct (hs_status hb); reflexivity.
Qed.

(* the outcome of any packet: failure, or a sender whose signature is right *)
Lemma process_packet_Val P h pkt s h' p s' : process_packet P h pkt s = (Val (h', p), s') ->
  (hs_status h' = H_FAILED /\ p = None) \/
  exists c c' parsed, sender_chain P h pkt c c' parsed /\ (parsed = true -> carries P pkt c) /\
    hs_remote h' = Some c' /\ hs_root h' <> None /\ same_setup h h' /\
    hs_ephemeral h' = hs_ephemeral h /\
    hs_status h' = (if parsed : bool then H_PENDING_VERIFICATION else H_PENDING_FINALIZATION).
Proof.
  unfold process_packet. intros H. destruct (hs_status h) eqn:St; try (left; apply hfail_Val in H; exact H).
  - apply process_initial_Val in H. destruct H as [H|H]; [left; exact H|]. right.
    destruct H as (sd & pub & required & c & c' & parsed & eph & ctx & k & ser & kdf & r & rb & response & q & q' & s1 & s2 & s3 & s4 & s5 & s6 & s7 & Hd & _ & _ & SC & PP & _ & _ & _ & _ & H).
    cbv zeta in H. destruct H as (_ & _ & _ & _ & _ & _ & _ & H). exists c, c', parsed. split; [exact SC|]. split.
    { intros E. destruct (PP E) as (m & E1 & E2). exists m. split; [|exact E2]. exists sd. left. auto. }
    subst h'.
    destruct parsed; cbn [hs_status set_root set_remote set_hstatus record_packet]; rewrite ?St; cbn; repeat split; discriminate.
  - apply process_response_Val in H. destruct H as [H|(-> & H)]; [left; exact H|]. right.
    destruct H as (r & enc & pub & obj & lk & rem & c & c' & parsed & e & kdf & buf & m & k & Hd & _ & _ & _ & _ & _ & SC & PP & _ & H).
    cbv zeta in H. destruct H as (_ & _ & _ & _ & H). exists c, c', parsed. split; [exact SC|]. split.
    { intros E. destruct (PP E) as (m' & E1 & E2). exists m'. split; [|exact E2].
      exists {| ps_chain := None; ps_pubkey := None; ps_required := None |}. right. exists r. auto. }
    subst h'.
    destruct parsed; cbn [hs_status set_root set_remote set_hstatus record_packet]; rewrite ?St; cbn; repeat split; discriminate.
Qed.

(* --- parsed identities can be copied *)
Lemma key_copy_ok k : within_limit (blen (ek_pub k)) -> (forall q, ek_pri k = Some q -> within_limit (blen q)) -> ec_key_copy (Some k) = Some k.
Proof.
  intros A B. unfold ec_key_copy. rewrite (copy_limit _ A). destruct k as [c p q]. cbn [ek_pri ek_pub ek_curve] in *.
  destruct q as [q|]; [|reflexivity]. rewrite (copy_limit _ (B _ eq_refl)). reflexivity.
Qed.
Lemma create_within x y : buffer_create x = Some y -> within_limit (blen y).
Proof. intros H. apply buffer_create_Some in H. destruct H as [-> H]. apply size_ok_limit, H. Qed.
Lemma pub_buffer_within c o p : ec_pub_key_to_buffer c o = Some p -> within_limit (blen p).
Proof. exact (create_within _ _). Qed.
Lemma pri_buffer_within o p : ec_pri_key_to_buffer o = Some p -> within_limit (blen p).
Proof. exact (create_within _ _). Qed.
Lemma import_copy P b p k : ec_key_import P (Some b) p = Some k -> ec_key_copy (Some k) = Some k.
Proof.
  unfold ec_key_import. destruct (if p then _ else _) as [[pub der]|]; [|discriminate]. destruct (p_inf P pub); [discriminate|].
  destruct (ec_pub_key_to_buffer P521 pub) as [pk|] eqn:E; [|discriminate]. apply pub_buffer_within in E.
  destruct der as [x|].
  - destruct (ec_pri_key_to_buffer x) as [q|] eqn:F; [|discriminate]. apply pri_buffer_within in F. unfold ec_key_create. intros H. apply Some_inj in H. subst k.
    apply key_copy_ok; [exact E|]. cbn [ek_pri]. intros q0 Q. apply Some_inj in Q. subst q0. exact F.
  - unfold ec_key_create. intros H. apply Some_inj in H. subst k. apply key_copy_ok; [exact E|]. discriminate.
Qed.
Lemma sig_parse_copy b s : ecdsa_result_create_from_buffer b = Val s -> ecdsa_result_copy (Some s) = Some s.
Proof.
  intros H. assert (L : within_limit (blen (es_sig s))).
  { unfold ecdsa_result_create_from_buffer in H. destruct b as [b|]; [|discriminate]. destruct (blen b <? _); [discriminate|].
    apply rbind_Val in H. destruct H as (b0 & _ & H). cbv zeta in H. destruct (curve_find _); [|discriminate]. destruct (digest_find _); [|discriminate].
    apply rbind_Val in H. destruct H as (b1 & _ & H). destruct (_ <=? _); [discriminate|]. apply rbind_Val in H. destruct H as (x & Hx & H).
    apply lift_Val' in Hx. unfold ecdsa_result_create in H.
    apply lift_Val' in H. apply Some_inj in H. subst s. cbn [es_sig].
    apply section_inv in Hx. destruct Hx as (a & z & _ & _ & Lx & M & _). unfold within_limit, library_limit. unfold MAX_BUFFER_SIZE in M. lia. }
  unfold ecdsa_result_copy. rewrite (copy_limit _ L). destruct s. reflexivity.
Qed.
Lemma identity_parse_copy P m x : identity_create_from_proto P m = Val x -> identity_copy (Some x) = Some x.
Proof.
  unfold identity_create_from_proto. destruct m as [m|]; [|discriminate]. destruct (pi_identifier m) as [i|]; [|discriminate].
  destruct (pi_sig_key m) as [k|]; [|discriminate]. destruct (pi_type m) as [t|]; [|discriminate]. intros H.
  apply rbind_Val in H. destruct H as (ib & Hi & H). apply lift_Val' in Hi. apply buffer_create_Some in Hi. destruct Hi as [-> Hi].
  cbv zeta in H. apply rbind_Val in H. destruct H as (key & Hk & H). apply lift_Val' in Hk.
  apply rbind_Val in H. destruct H as (sg & Hs & H). apply lift_Val' in H. unfold identity_create in H.
  destruct (_ <=? _) eqn:E; [discriminate|]. apply Some_inj in H. subst x. unfold identity_copy. cbn [id_identifier id_key id_type id_signature].
  rewrite (copy_limit i) by (apply size_ok_limit, Hi). rewrite (import_copy _ _ _ _ Hk).
  assert (Q : ecdsa_result_copy sg = sg).
  { destruct (pi_signature m) as [s0|]; [|apply Val_inj in Hs; subst sg; reflexivity]. apply rbind_Val in Hs. destruct Hs as (r & Hr & Hs). apply Val_inj in Hs. subst sg.
    exact (sig_parse_copy _ _ Hr). }
  rewrite Q. unfold identity_create. rewrite E. reflexivity.
Qed.
Lemma chain_parse_copy P m c : chain_create_from_proto P m = Val c ->
  identity_copy (Some (ch_root c)) = Some (ch_root c) /\ identity_copy (Some (ch_node c)) = Some (ch_node c) /\ ch_cache c = None.
Proof.
  unfold chain_create_from_proto. destruct m as [m|]; [|discriminate]. intros H. apply rbind_Val in H. destruct H as (r & Hr & H).
  apply rbind_Val in H. destruct H as (n & Hn & H). apply lift_Val' in H. cbn [chain_create] in H. apply Some_inj in H. subst c. cbn [ch_root ch_node ch_cache].
  eauto using identity_parse_copy.
Qed.
Lemma verify_chain P p c : snd (tpacket_verify P p c) = c \/ snd (tpacket_verify P p c) = snd (chain_validate P c).
Proof.
  unfold tpacket_verify. destruct (tp_mac p) as [mac|]; [|left; reflexivity]. destruct (negb _); [left; reflexivity|].
  destruct (match tp_network p with Some n => Some n | None => tpacket_serialize p end); [|left; reflexivity].
  cbv zeta. destruct (chain_validate P c) as [v c'] eqn:V. destruct (negb v); [right; reflexivity|]. destruct (_ <=? _); [right; reflexivity|].
  destruct (ecdsa_result_create_from_buffer _); right; reflexivity.
Qed.
Lemma verified_valid P p c : verified_by P p c -> fst (chain_validate P c) = true.
Proof.
  unfold verified_by, tpacket_verify. destruct (tp_mac p) as [mac|]; [|discriminate]. destruct (negb _); [discriminate|].
  destruct (match tp_network p with Some n => Some n | None => tpacket_serialize p end); [|discriminate].
  cbv zeta. destruct (chain_validate P c) as [v c'] eqn:V. destruct v; [reflexivity|discriminate].
Qed.
Lemma validate_same P c : same_identities (snd (chain_validate P c)) c.
Proof. unfold chain_validate. destruct (chain_has_valid_cache P c); split; reflexivity. Qed.
Lemma parsed_asked P m c p : sha_ok P -> chain_create_from_proto P (Some m) = Val c ->
  exists i, chain_copy (Some (snd (tpacket_verify P p c))) = Some i /\ same_identities i c.
Proof.
  intros SO H. destruct (chain_parse_copy _ _ _ H) as (R & N & C).
  assert (X : forall d, same_identities d c -> (forall v, ch_cache d = Some v -> within_limit (blen v)) -> exists i, chain_copy (Some d) = Some i /\ same_identities i c).
  { intros d [E1 E2] L. unfold chain_copy. rewrite E1, E2, R, N. destruct (ch_cache d) as [v|].
    - rewrite (copy_limit _ (L _ eq_refl)). eexists. split; [reflexivity|]. split; reflexivity.
    - cbn. eexists. split; [reflexivity|]. split; reflexivity. }
  destruct (verify_chain P p c) as [-> | ->].
  - apply X; [split; reflexivity|]. rewrite C. discriminate.
  - apply X; [apply validate_same|]. unfold chain_validate. destruct (chain_has_valid_cache P c); cbn [snd].
    + rewrite C. discriminate.
    + unfold chain_update_status_cache. cbn [ch_cache]. intros v Hv. apply chain_cache_Some in Hv. destruct Hv as (s & _ & ->).
      rewrite SO. unfold within_limit, library_limit. cbn. lia.
Qed.
Lemma parsed_truth P m c : chain_create_from_proto P m = Val c -> fst (chain_validate P c) = true -> chain_truth P c = true.
Proof.
  intros H V. destruct (chain_parse_copy _ _ _ H) as (_ & _ & C). revert V. unfold chain_validate, chain_has_valid_cache. rewrite C. cbn [fst].
  unfold chain_truth. destruct (id_signature (ch_node c)); [|discriminate]. intros V. exact V.
Qed.

(* --- one call of wickr_transport_handshake_process *)
Lemma process_Val P h p s h' q a s' : handshake_process P h p s = (Val (h', q, a), s') ->
  (hs_status h' = H_FAILED /\ q = None /\ a = None) \/
  exists pkt c c' parsed, p = Some pkt /\ (hs_status h = H_UNKNOWN \/ hs_status h = H_IN_PROGRESS) /\
    sender_chain P h pkt c c' parsed /\ (parsed = true -> carries P pkt c) /\
    hs_remote h' = Some c' /\ hs_root h' <> None /\
    hs_local h' = hs_local h /\ hs_evo h' = hs_evo h /\ hs_initiator h' = hs_initiator h /\
    (if parsed : bool then hs_status h' = H_PENDING_VERIFICATION /\ q = None /\ a = chain_copy (Some c')
     else hs_status h' = H_PENDING_FINALIZATION /\ a = None).
Proof.
  unfold handshake_process. destruct p as [pkt|].
  2:{ intros H. apply mret_Val in H. destruct H as [H _]. apply pair_equal_spec in H. destruct H as [H ->]. apply pair_equal_spec in H. destruct H as [-> ->]. left. repeat split. }
  destruct (negb _).
  { intros H. apply mret_Val in H. destruct H as [H _]. apply pair_equal_spec in H. destruct H as [H ->]. apply pair_equal_spec in H. destruct H as [-> ->]. left. repeat split. }
  assert (Fail : forall x y z : nat, mret (set_hstatus H_FAILED h, @None tpacket, @None chain) x = (Val (h', q, a), y) -> hs_status h' = H_FAILED /\ q = None /\ a = None).
  { intros x y _ H. apply mret_Val in H. destruct H as [H _]. apply pair_equal_spec in H. destruct H as [H ->]. apply pair_equal_spec in H. destruct H as [-> ->]. repeat split. }
  assert (Go : forall x, (hs_status h = H_UNKNOWN \/ hs_status h = H_IN_PROGRESS) ->
    mbind (process_packet P h pkt) (fun r => let '(h'0, p) := r in
      match hs_status h'0 with H_FAILED => mret (h'0, None, None) | H_PENDING_VERIFICATION => mret (set_pending p h'0, None, chain_copy (hs_remote h'0)) | _ => mret (h'0, p, None) end) x = (Val (h', q, a), s') ->
    (hs_status h' = H_FAILED /\ q = None /\ a = None) \/
    exists c c' parsed, sender_chain P h pkt c c' parsed /\ (parsed = true -> carries P pkt c) /\
    hs_remote h' = Some c' /\ hs_root h' <> None /\
    hs_local h' = hs_local h /\ hs_evo h' = hs_evo h /\ hs_initiator h' = hs_initiator h /\
    (if parsed : bool then hs_status h' = H_PENDING_VERIFICATION /\ q = None /\ a = chain_copy (Some c')
     else hs_status h' = H_PENDING_FINALIZATION /\ a = None)).
  { intros x _ H. apply mbind_Val in H. destruct H as ([h1 p1] & s1 & H1 & H). apply process_packet_Val in H1.
    destruct H1 as [[F ->]|(c & c' & parsed & SC & CA & R & K & (L & E & _ & I) & _ & St)].
    - rewrite F in H. apply mret_Val in H. destruct H as [H _]. apply pair_equal_spec in H. destruct H as [H ->]. apply pair_equal_spec in H. destruct H as [-> ->]. left. repeat split. exact F.
    - right. exists c, c', parsed. rewrite St in H. destruct parsed.
      + apply mret_Val in H. destruct H as [H _]. apply pair_equal_spec in H. destruct H as [H ->]. apply pair_equal_spec in H. destruct H as [-> ->].
        rewrite R. split; [exact SC|]. split; [exact CA|]. cbn [hs_remote hs_root hs_local hs_evo hs_initiator hs_status set_pending]. repeat (split; [assumption|]). split; reflexivity.
      + apply mret_Val in H. destruct H as [H _]. apply pair_equal_spec in H. destruct H as [H ->]. apply pair_equal_spec in H. destruct H as [-> ->].
        do 7 (split; [assumption|]). split; [exact St|reflexivity]. }
  destruct (hs_status h) eqn:St; intros H; try (left; exact (Fail _ _ 0%nat H)).
  - apply Go in H; [|left; reflexivity]. destruct H as [H|(c & c' & parsed & H)]; [left; exact H|]. right. exists pkt, c, c', parsed. split; [reflexivity|]. split; [left; reflexivity|exact H].
  - apply Go in H; [|right; reflexivity]. destruct H as [H|(c & c' & parsed & H)]; [left; exact H|]. right. exists pkt, c, c', parsed. split; [reflexivity|]. split; [right; reflexivity|exact H].
Qed.
Lemma start_Val P h s h' p s' : handshake_start P h s = (Val (h', p), s') ->
  (hs_status h' = H_FAILED /\ p = None) \/
  hs_status h = H_UNKNOWN /\ exists k seed pkt q s1 s2,
    ec_rand_key P P521 s = (Val k, s1) /\
    seed_create (hs_local h) (ek_pub k) (match hs_remote h with None => true | Some _ => false end) = Some seed /\
    handshake_to_packet (PSeed seed) = Some pkt /\ tpacket_sign P pkt (hs_local h) s2 = (Val (true, q), s') /\ p = Some q /\
    h' = record_packet 0 (tp_network q) (set_ephemeral (Some k) (set_hstatus H_IN_PROGRESS (set_initiator true h))).
Proof.
  unfold handshake_start. intros H. destruct (hs_status h) eqn:St; try (left; apply hfail_Val in H; exact H).
  cbv zeta in H. apply htry_Val in H. destruct H as [H|(k & s1 & Hk & H)]; [left; exact H|].
  apply htry_Val in H. destruct H as [H|(sd & s2 & Hs & H)]; [left; exact H|]. apply mlift_Val in Hs. destruct Hs as [Hs ->].
  apply build_signed_Val in H. destruct H as [H|(pkt & q & s3 & Hp & Hq & -> & ->)]; [left; exact H|]. right. split; [reflexivity|].
  exists k, sd, pkt, q, s1, s3. split; [exact Hk|]. split; [exact Hs|]. split; [exact Hp|]. split; [exact Hq|]. split; reflexivity.
Qed.
Lemma finalize_Val P h h' k : handshake_finalize P h = Val (h', k) ->
  (hs_status h' = H_FAILED /\ k = None) \/ (hs_status h = H_PENDING_FINALIZATION /\ hs_root h <> None /\ hs_status h' = H_COMPLETE /\ k <> None /\ h' = set_hstatus H_COMPLETE h).
Proof.
  unfold handshake_finalize. cbv zeta. intros H.
  assert (F : forall X Y, Val (set_hstatus H_FAILED h, @None handshake_res) = Val (X, Y) -> hs_status X = H_FAILED /\ Y = None).
  { intros X Y E. apply Val_inj in E. apply pair_equal_spec in E. destruct E as [<- <-]. split; reflexivity. }
  destruct (hs_root h) as [r|] eqn:R; [|left; exact (F _ _ H)]. destruct (hs_status h) eqn:St; try (left; exact (F _ _ H)).
  destruct (buffer_concat _ _) as [t|]; [|left; exact (F _ _ H)]. destruct (sha2 P _ _ _) as [t'|]; [|left; exact (F _ _ H)].
  apply rbind_Val in H. destruct H as (a & _ & H). apply rbind_Val in H. destruct H as (b & _ & H).
  destruct a as [a|]; [|left; exact (F _ _ H)]. destruct b as [b|]; [|left; exact (F _ _ H)].
  apply Val_inj in H. apply pair_equal_spec in H. destruct H as [<- <-]. right. repeat split; discriminate.
Qed.

(* --- what a handshake that knew nobody has been through *)
Definition asked_about (P : prims) (hist : list (hop * hout)) : Prop :=
  exists before p out1 between c i,
    hist = (before ++ (HProcess (Some p), out1) :: between)%list /\
    carries P p c /\ verified_by P p c /\ chain_truth P c = true /\ ho_asked out1 = Some i /\ same_identities i c.
Lemma asked_more P hist x : asked_about P hist -> asked_about P (hist ++ [x]).
Proof.
  intros (before & p & o & btw & c & i & -> & H). exists before, p, o, (btw ++ [x])%list, c, i. split; [|exact H].
  rewrite <- app_assoc. reflexivity.
Qed.
Lemma accepted_more P hist x : identity_accepted P hist -> identity_accepted P (hist ++ [x]).
Proof.
  intros (before & p & o & btw & o2 & aft & c & i & -> & H). exists before, p, o, btw, o2, (aft ++ [x])%list, c, i. split; [|exact H].
  rewrite <- app_assoc. cbn. rewrite <- app_assoc. reflexivity.
Qed.
Lemma asked_accepted P hist o : asked_about P hist -> identity_accepted P (hist ++ [(HVerify true, o)]).
Proof.
  intros (before & p & o1 & btw & c & i & -> & H). exists before, p, o1, btw, o, [], c, i. split; [|exact H].
  rewrite <- app_assoc. reflexivity.
Qed.
Definition hinv (P : prims) (hist : list (hop * hout)) (h : handshake) : Prop :=
  match hs_status h with
  | H_UNKNOWN | H_IN_PROGRESS => hs_remote h = None
  | H_PENDING_VERIFICATION => asked_about P hist /\ hs_root h <> None
  | H_PENDING_FINALIZATION | H_COMPLETE => identity_accepted P hist
  | H_FAILED => True
  end.
Lemma hinv_reach P l evo h0 hist h : sha_ok P -> handshake_create l None evo = Some h0 -> hreach P h0 hist h -> hinv P hist h.
Proof.
  intros SO C R. induction R as [|hist h o s h' out R IH S].
  { unfold handshake_create in C. destruct l; [|discriminate]. destruct (evo =? 0); [discriminate|]. apply Some_inj in C. subst h0. reflexivity. }
  unfold hstep in S. destruct o as [|p|v|].
  - destruct (handshake_start P h s) as [[[h1 p1]| |] s1] eqn:H; cbn [fst] in S; try discriminate.
    apply Val_inj in S. apply pair_equal_spec in S. destruct S as [-> <-]. apply start_Val in H. destruct H as [[F _]|(St & k & seed & pkt & q & s2 & s3 & _ & _ & _ & _ & _ & ->)].
    + unfold hinv. rewrite F. exact I.
    + unfold hinv in *. rewrite St in IH. cbn. exact IH.
  - destruct (handshake_process P h p s) as [[[[h1 q1] a1]| |] s1] eqn:H; cbn [fst] in S; try discriminate.
    apply Val_inj in S. apply pair_equal_spec in S. destruct S as [-> <-]. apply process_Val in H.
    destruct H as [(F & _)|(pkt & c & c' & parsed & -> & St & SC & CA & R1 & K & _ & _ & _ & H)]; [unfold hinv; rewrite F; exact I|].
    assert (E : hs_remote h = None) by (unfold hinv in IH; destruct St as [St|St]; rewrite St in IH; exact IH).
    destruct parsed; [|destruct SC as (X & _); congruence]. destruct H as (St' & -> & ->). unfold hinv. rewrite St'. split; [|exact K].
    destruct SC as ((_ & m & Hm) & V & ->). destruct (parsed_asked P m c pkt SO Hm) as (i & Hi & Si).
    eexists hist, pkt, _, [], c, i. split; [reflexivity|]. split; [exact (CA eq_refl)|]. split; [exact V|].
    split; [exact (parsed_truth _ _ _ Hm (verified_valid _ _ _ V))|]. split; [exact Hi|exact Si].
  - unfold handshake_verify_identity in S. destruct v.
    + destruct (hs_status h) eqn:St; apply Val_inj in S; apply pair_equal_spec in S; destruct S as [<- <-]; try exact I.
      unfold hinv in IH. rewrite St in IH. destruct IH as [A K]. destruct (hs_root h) as [k|]; [|congruence]. unfold hinv. cbn.
      apply asked_accepted, A.
    + apply Val_inj in S; apply pair_equal_spec in S; destruct S as [<- <-]. exact I.
  - destruct (handshake_finalize P h) as [[h1 k1]| |] eqn:H; try discriminate. apply Val_inj in S. apply pair_equal_spec in S. destruct S as [-> <-].
    apply finalize_Val in H. destruct H as [[F _]|(St & _ & _ & _ & ->)]; [unfold hinv; rewrite F; exact I|].
    unfold hinv in *. rewrite St in IH. cbn. apply accepted_more, IH.
Qed.
(* keys come only after the identity was accepted *)
Lemma keys_after_acceptance P l evo h0 hist h s h' out : sha_ok P -> handshake_create l None evo = Some h0 -> hreach P h0 hist h ->
  hstep P h HFinalize s = Val (h', out) -> ho_keys out <> None -> identity_accepted P hist.
Proof.
  intros SO C R S K. pose proof (hinv_reach _ _ _ _ _ _ SO C R) as IH. unfold hstep in S.
  destruct (handshake_finalize P h) as [[h1 k1]| |] eqn:H; try discriminate. apply Val_inj in S. apply pair_equal_spec in S. destruct S as [-> <-].
  cbn [ho_keys] in K. apply finalize_Val in H. destruct H as [[_ F]|(St & _)]; [congruence|]. unfold hinv in IH. rewrite St in IH. exact IH.
Qed.
Lemma complete_after_acceptance P l evo h0 hist h : sha_ok P -> handshake_create l None evo = Some h0 -> hreach P h0 hist h ->
  hs_status h = H_COMPLETE -> identity_accepted P hist.
Proof. intros SO C R St. pose proof (hinv_reach _ _ _ _ _ _ SO C R) as IH. unfold hinv in IH. rewrite St in IH. exact IH. Qed.
(* a bad signature is fatal *)
Lemma bad_signature_fails P h p s h' out : hstep P h (HProcess (Some p)) s = Val (h', out) ->
  (forall c, expected_sender P h p c -> ~ verified_by P p c) ->
  hs_status h' = H_FAILED /\ ho_packet out = None /\ ho_asked out = None.
Proof.
  unfold hstep. destruct (handshake_process P h (Some p) s) as [[[[h1 q1] a1]| |] s1] eqn:H; cbn [fst]; try discriminate.
  intros S. apply Val_inj in S. apply pair_equal_spec in S. destruct S as [-> <-]. intros B. apply process_Val in H.
  destruct H as [(F & -> & ->)|(pkt & c & c' & parsed & E & St & SC & CA & _)]; [repeat split; exact F|].
  apply Some_inj in E. subst pkt. exfalso. destruct SC as (X & V & _). apply (B c); [|exact V]. unfold expected_sender.
  destruct parsed; [destruct X as [-> _]; exact (CA eq_refl)|rewrite X; reflexivity].
Qed.
(* failure is final *)
Lemma failed_stays P h o s h' out : hs_status h = H_FAILED -> hstep P h o s = Val (h', out) ->
  hs_status h' = H_FAILED /\ ho_packet out = None /\ ho_asked out = None /\ ho_keys out = None.
Proof.
  intros F S. unfold hstep in S. destruct o as [|p|v|].
  - unfold handshake_start in S. rewrite F in S. cbn in S. apply Val_inj in S. apply pair_equal_spec in S. destruct S as [<- <-]. repeat split.
  - destruct (handshake_process P h p s) as [[[[h1 q1] a1]| |] s1] eqn:H; cbn [fst] in S; try discriminate.
    apply Val_inj in S. apply pair_equal_spec in S. destruct S as [-> <-]. apply process_Val in H.
    destruct H as [(F' & -> & ->)|(pkt & c & c' & parsed & E & [St|St] & _)]; [repeat split; exact F'|congruence|congruence].
  - unfold handshake_verify_identity in S. destruct v; rewrite ?F in S; apply Val_inj in S; apply pair_equal_spec in S; destruct S as [<- <-]; repeat split.
  - unfold handshake_finalize in S. rewrite F in S. destruct (hs_root h); apply Val_inj in S; apply pair_equal_spec in S; destruct S as [<- <-]; repeat split.
Qed.
