(* Two transport contexts, from their creation to the messages. *)
From Coq Require Import ZifyBool ZifyNat ZifyN.
From Verif.Base Require Import Bytes Monad.
From Verif.Model Require Import Buffer Cipher Ecdsa Kdf Prims Engine Identity Proto Stream TransportPacket EcdhCipher Handshake Transport.
From Verif.Spec Require Import BufferSpec CodecSpec EngineSpec IdentitySpec StreamSpec TransportSpec HandshakeSpec.
From Verif.Proofs Require Import BytesFacts BufferFacts BufferProps CodecFacts EngineFacts ProtoFacts IdentityFacts CacheFacts TransportPacketFacts StreamFacts HandshakeFacts AgreementFacts TransportFacts.
Ltac Zify.zify_post_hook ::= Z.div_mod_to_equations.
Local Open Scope N_scope.

Lemma error_not_active e c c' ev s s' : mret (set_error e c) s = (Val (c', ev), s') -> tc_status c' <> T_ACTIVE.
Proof. intros H. apply mret_Val in H. destruct H as [H _]. symmetry in H. apply set_error_eq in H. destruct H as [-> _]. discriminate. Qed.
(* the end of a handshake *)
Lemma finalize_active P c h s c' ev s' : tc_status c <> T_ACTIVE -> finalize_handshake P c h s = (Val (c', ev), s') ->
  (tc_status c' <> T_ACTIVE /\ (tc_handshake c' = None \/ exists h', tc_handshake c' = Some h' /\ hs_status h' <> H_PENDING_FINALIZATION) /\ forall b, ~ In (EvTx b) ev) \/
  (tc_status c' = T_ACTIVE /\ exists he k, handshake_finalize P h = Val (he, Some k) /\ tc_handshake c' = None /\ fresh_streams P c' (hr_local k) (hr_remote k) /\ forall b, ~ In (EvTx b) ev).
Proof.
  intros NA H. unfold finalize_handshake in H. apply mbind_Val in H. destruct H as ([h' k] & s1 & H1 & H). apply mres_Val in H1. destruct H1 as [H1 ->].
  destruct k as [k|].
  2:{ inv_ret H. destruct H as [-> ->]. left. split; [exact NA|]. split; [|intros b []]. right. exists h'. split; [reflexivity|].
      apply finalize_Val in H1. destruct H1 as [[F _]|(_ & _ & F & _)]; rewrite F; discriminate. }
  assert (Lost : forall x y, mret (set_thandshake None c, @nil tevent) x = (Val (c', ev), y) ->
    (tc_status c' <> T_ACTIVE /\ (tc_handshake c' = None \/ exists h', tc_handshake c' = Some h' /\ hs_status h' <> H_PENDING_FINALIZATION) /\ forall b, ~ In (EvTx b) ev)).
  { intros x y E. inv_ret E. destruct E as [-> ->]. split; [exact NA|]. split; [left; reflexivity|]. intros b []. }
  cbv zeta in H. apply mbind_Val in H. destruct H as (tx & s2 & Ht & H). destruct tx as [tx|]; [|left; exact (Lost _ _ H)].
  apply mbind_Val in H. destruct H as (rx & s3 & Hr & H). destruct rx as [rx|]; [|left; exact (Lost _ _ H)].
  apply mtry_Val in Ht, Hr. 
  destruct (stream_key_copy (Some (hr_local k))) as [ks|] eqn:Ks; [|discriminate Ht]. destruct (stream_key_copy (Some (hr_remote k))) as [kr|] eqn:Kr; [|discriminate Hr].
  apply stream_key_copy_same in Ks, Kr. subst ks kr.
  apply mret_Val in H. destruct H as [H _]. symmetry in H. apply update_eq in H. destruct H as [-> E]. right. split; [reflexivity|].
  exists h', k. split; [exact H1|]. split; [reflexivity|]. split.
  - exists tx, rx. do 4 eexists. split; [reflexivity|]. split; [reflexivity|]. split; eassumption.
  - intros b Hb. destruct E as [-> | ->]; [destruct Hb|destruct Hb as [Hb|[]]; discriminate].
Qed.
Definition ends_with (P : prims) (h : handshake) (volley : option tpacket) (c' : transport) (ev : list tevent) : Prop :=
  exists he k, hs_status h = H_PENDING_FINALIZATION /\ handshake_finalize P h = Val (he, Some k) /\ tc_handshake c' = None /\ fresh_streams P c' (hr_local k) (hr_remote k) /\
    forall b, In (EvTx b) ev -> exists p, volley = Some p /\ tpacket_serialize p = Some b.
Lemma after_active P c volley f u s c' ev s' : tc_status c <> T_ACTIVE -> after_handshake P c volley f u s = (Val (c', ev), s') ->
  (tc_status c' <> T_ACTIVE /\ (tc_handshake c' = None \/ exists h', tc_handshake c' = Some h' /\ hs_status h' <> H_PENDING_FINALIZATION)) \/
  (tc_status c' = T_ACTIVE /\ exists h, tc_handshake c = Some h /\ ends_with P h volley c' ev).
Proof.
  intros NA H. unfold after_handshake in H. apply mbind_Val in H. destruct H as ([c1 ev1] & s1 & H1 & H).
  assert (K : (tc_status c1 <> T_ACTIVE /\ (tc_handshake c1 = None \/ exists h', tc_handshake c1 = Some h' /\ hs_status h' <> H_PENDING_FINALIZATION) /\ forall b, ~ In (EvTx b) ev1) \/
    (tc_status c1 = T_ACTIVE /\ exists h he k, tc_handshake c = Some h /\ hs_status h = H_PENDING_FINALIZATION /\ handshake_finalize P h = Val (he, Some k) /\ tc_handshake c1 = None /\ fresh_streams P c1 (hr_local k) (hr_remote k) /\ forall b, ~ In (EvTx b) ev1)).
  { assert (Same : (tc_handshake c = None \/ exists h', tc_handshake c = Some h' /\ hs_status h' <> H_PENDING_FINALIZATION) -> forall x y, mret (c, @nil tevent) x = (Val (c1, ev1), y) ->
      tc_status c1 <> T_ACTIVE /\ (tc_handshake c1 = None \/ exists h', tc_handshake c1 = Some h' /\ hs_status h' <> H_PENDING_FINALIZATION) /\ forall b, ~ In (EvTx b) ev1).
    { intros X x y E. inv_ret E. destruct E as [-> ->]. split; [exact NA|]. split; [exact X|]. intros b []. }
    destruct (tc_handshake c) as [h|] eqn:Eh; [|left; exact (Same (or_introl eq_refl) _ _ H1)].
    assert (NP : hs_status h <> H_PENDING_FINALIZATION -> forall x y, mret (c, @nil tevent) x = (Val (c1, ev1), y) ->
      tc_status c1 <> T_ACTIVE /\ (tc_handshake c1 = None \/ exists h', tc_handshake c1 = Some h' /\ hs_status h' <> H_PENDING_FINALIZATION) /\ forall b, ~ In (EvTx b) ev1).
    { intros X. apply Same. right. exists h. auto. }
    destruct (hs_status h) eqn:St; try (left; apply (NP ltac:(discriminate) _ _ H1)).
    destruct (finalize_active P c h _ _ _ _ NA H1) as [X|(X & he & k & Y)]; [left; exact X|]. right. split; [exact X|]. exists h, he, k. split; [reflexivity|]. split; [exact St|exact Y]. }
  assert (Err : forall e x y, (let '(c'0, ev') := set_error e c1 in mret (c'0, (ev1 ++ ev')%list)) x = (Val (c', ev), y) -> tc_status c' <> T_ACTIVE /\ tc_handshake c' = tc_handshake c1).
  { intros e x y E. destruct (set_error e c1) as [c2 ev2] eqn:S. apply set_error_eq in S. destruct S as [-> S]. inv_ret E. destruct E as [-> ->]. split; [discriminate|reflexivity]. }
  assert (Err' : (tc_status c' <> T_ACTIVE /\ tc_handshake c' = tc_handshake c1) -> tc_status c' <> T_ACTIVE /\ (tc_handshake c' = None \/ exists h', tc_handshake c' = Some h' /\ hs_status h' <> H_PENDING_FINALIZATION)).
  { intros [X Y]. split; [exact X|]. rewrite Y. destruct K as [(_ & K & _)|(_ & h & he & k & _ & _ & _ & K & _)]; [exact K|left; exact K]. }
  assert (Go : (match volley with None => mret (c1, ev1) | Some p => match tpacket_serialize p with
     | None => let '(c'0, ev') := set_error u c1 in mret (c'0, (ev1 ++ ev')%list) | Some b => mret (c1, (ev1 ++ [EvTx b])%list) end end) s1 = (Val (c', ev), s') ->
    (tc_status c' <> T_ACTIVE /\ (tc_handshake c' = None \/ exists h', tc_handshake c' = Some h' /\ hs_status h' <> H_PENDING_FINALIZATION)) \/
    (tc_status c' = T_ACTIVE /\ exists h, tc_handshake c = Some h /\ ends_with P h volley c' ev)).
  { intros E. destruct volley as [p|].
    2:{ inv_ret E. destruct E as [-> ->]. destruct K as [(K1 & K2 & _)|(K1 & h & he & k & K2 & K3 & K4 & K5 & K6 & K7)]; [left; auto|]. right. split; [exact K1|]. exists h. split; [exact K2|].
        exists he, k. split; [exact K3|]. split; [exact K4|]. split; [exact K5|]. split; [exact K6|]. intros b Hb. destruct (K7 b Hb). }
    destruct (tpacket_serialize p) as [b|] eqn:Sb; [|left; exact (Err' (Err _ _ _ E))]. inv_ret E. destruct E as [-> ->].
    destruct K as [(K1 & K2 & _)|(K1 & h & he & k & K2 & K3 & K4 & K5 & K6 & K7)]; [left; auto|]. right. split; [exact K1|]. exists h. split; [exact K2|].
    exists he, k. split; [exact K3|]. split; [exact K4|]. split; [exact K5|]. split; [exact K6|]. intros x Hx. apply in_app_or in Hx. destruct Hx as [Hx|[Hx|[]]]; [destruct (K7 x Hx)|].
    exists p. split; [reflexivity|]. congruence. }
  destruct (handshake_status (tc_handshake c1)); try exact (Go H). left. exact (Err' (Err _ _ _ H)).
Qed.
Lemma after_active_none P c f u s c' ev s' : tc_handshake c = None -> after_handshake P c None f u s = (Val (c', ev), s') -> c' = c /\ ev = [].
Proof.
  intros N H. unfold after_handshake in H. apply mbind_Val in H. destruct H as ([c1 ev1] & s1 & H1 & H). rewrite N in H1. inv_ret H1. destruct H1 as [-> ->].
  rewrite N in H. cbn [handshake_status] in H. inv_ret H. exact H.
Qed.
(* receiving a packet of the handshake, up to the active context *)
Definition handshake_of (c : transport) (h : handshake) : Prop := (match tc_handshake c with Some x => Some x | None => create_handshake c end) = Some h.
Definition handled (P : prims) (c : transport) (b : bytes) (c' : transport) (ev : list tevent) : Prop :=
  exists h pkt s h1 q a h2 p, handshake_of c h /\ tpacket_create_from_buffer (Some b) = Val pkt /\ fst (handshake_process P h (Some pkt) s) = Val (h1, q, a) /\
    settle h1 q = (h2, p) /\ ends_with P h2 p c' ev.
Lemma asked_status P h pkt s h1 q a s' i : handshake_process P h pkt s = (Val (h1, q, a), s') -> a = Some i -> hs_status h1 = H_PENDING_VERIFICATION /\ q = None.
Proof.
  intros H E. apply process_Val in H. destruct H as [(_ & _ & X)|(p & c & c' & parsed & _ & _ & _ & _ & _ & _ & _ & _ & _ & H)]; [congruence|].
  destruct parsed; [destruct H as (A & B & _); auto|destruct H as [_ X]; congruence].
Qed.
(* the answer: either not active or handled *)
Lemma answer_active P c h1 s c' ev s' : tc_status c <> T_ACTIVE -> hs_status h1 = H_PENDING_VERIFICATION ->
  identity_complete P (set_thandshake (Some h1) c) true s = (Val (c', ev), s') ->
  (tc_status c' <> T_ACTIVE /\ (tc_handshake c' = None \/ exists h', tc_handshake c' = Some h' /\ hs_status h' <> H_PENDING_FINALIZATION)) \/
  (tc_status c' = T_ACTIVE /\ exists h2 p, settle h1 None = (h2, p) /\ ends_with P h2 p c' ev).
Proof.
  intros NA St H. unfold identity_complete in H. cbn [tc_handshake set_thandshake] in H. unfold settle. rewrite St. destruct (handshake_verify_identity h1 true) as [h2 p] eqn:V.
  change (set_thandshake (Some h2) (set_thandshake (Some h1) c)) with (set_thandshake (Some h2) c) in H.
  apply after_active in H; [|exact NA]. destruct H as [H|(A & h & E & H)]; [left; exact H|right]. split; [exact A|]. cbn [tc_handshake set_thandshake] in E. apply Some_inj in E. subst h.
  exists h2, p. auto.
Qed.
Lemma ends_with_more P h p c ev x : (forall b, ~ In (EvTx b) x) -> ends_with P h p c ev -> ends_with P h p c (x ++ ev)%list.
Proof.
  intros N (he & k & A & B & C & D & E). exists he, k. repeat (split; [assumption|]). intros b Hb. apply in_app_or in Hb. destruct Hb as [Hb|Hb]; [destruct (N b Hb)|exact (E b Hb)].
Qed.
Lemma receive_now P c b pad s c' ev s' : waiting c -> transport_step P c (TReceive (Some b) (Some true) pad) s = (Val (c', ev), s') -> tc_status c' = T_ACTIVE -> handled P c b c' ev.
Proof.
  intros (Wt & Wr & Ws) H A. cbn [transport_step] in H. unfold process_rx_buffer in H.
  assert (Err : forall e x y, mret (set_error e c) x = (Val (c', ev), y) -> handled P c b c' ev) by (intros e x y E; apply error_not_active in E; congruence).
  assert (Go : forall x, mbind (mres (rtry (tpacket_create_from_buffer (Some b)))) (fun packet => match packet with None => mret (set_error E_INVALID_RXDATA c) | Some pkt =>
     if can_process_handshake c && (body_type (tm_body (tp_meta pkt)) =? 0) then process_handshake_packet P c pkt (Some true)
          else match tc_rx c with
               | Some rx =>
                   let '(r, rx') := decode_pkt P rx pkt pad in
                   let c := set_streams (tc_tx c) (Some rx') c in
                   mbind (mres (rtry r)) (fun d =>
                   match d with
                   | None => mret (set_error E_PACKET_DECODE_FAILED c)
                   | Some data => mret (c, [EvRx data])
                   end)
               | None => mret (set_error E_BAD_RX_STATE c)
               end end) x = (Val (c', ev), s') -> handled P c b c' ev).
  2:{ destruct (tc_status c) eqn:St; try exact (Go _ H). inv_ret H. destruct H as [-> ->]. congruence. }
  clear H. intros x H. apply mbind_Val in H. destruct H as (packet & s1 & Hp & H). apply mres_Val in Hp. destruct Hp as [Hp ->].
  destruct packet as [pkt|]; [|exact (Err _ _ _ H)]. destruct (_ && _).
  2:{ rewrite Wr in H. exact (Err _ _ _ H). }
  assert (Pk : tpacket_create_from_buffer (Some b) = Val pkt) by (destruct (tpacket_create_from_buffer (Some b)); cbn in Hp; congruence).
  unfold process_handshake_packet in H.
  destruct (match tc_handshake c with Some h => Some h | None => create_handshake c end) as [h|] eqn:Eh; [|exact (Err _ _ _ H)].
  apply mbind_Val in H. destruct H as ([[h1 q] a] & s2 & H1 & H). cbv zeta in H. apply mbind_Val in H. destruct H as ([c1 ev1] & s3 & H2 & H). apply mbind_Val in H. destruct H as ([c2 ev2] & s4 & H3 & H).
  inv_ret H. destruct H as [-> ->].
  destruct a as [i|].
  - destruct (asked_status _ _ _ _ _ _ _ _ i H1 eq_refl) as [St ->]. apply mbind_Val in H2. destruct H2 as ([c3 ev3] & s5 & H4 & H2). inv_ret H2. destruct H2 as [-> ->].
    apply answer_active in H4; [|exact Ws|exact St]. destruct H4 as [(NA & Nh)|(A3 & h2 & p & Se & En)].
    + exfalso. apply after_active in H3; [|exact NA]. destruct H3 as [(X & _)|(_ & h0 & Eh0 & (he & k & X & _))]; [congruence|]. destruct Nh as [Nh|(h' & Nh & Y)]; congruence.
    + destruct En as (he & k & E1 & E2 & E3 & E4 & E5). apply after_active_none in H3; [|exact E3]. destruct H3 as [-> ->]. rewrite app_nil_r.
      exists h, pkt. exists x, h1, None, (Some i), h2, p. split; [exact Eh|]. split; [exact Pk|]. split; [rewrite H1; reflexivity|]. split; [exact Se|].
      change (EvVerify i :: ev3) with ([EvVerify i] ++ ev3)%list. apply ends_with_more; [intros b0 [X|[]]; discriminate|]. exists he, k. auto.
  - inv_ret H2. destruct H2 as [-> ->]. cbn [app]. apply after_active in H3; [|exact Ws]. destruct H3 as [(X & _)|(_ & h0 & Eh0 & En)]; [congruence|].
    cbn [tc_handshake set_thandshake] in Eh0. apply Some_inj in Eh0. subst h0. exists h, pkt, x, h1, q, None, h1, q. split; [exact Eh|]. split; [exact Pk|]. split; [rewrite H1; reflexivity|].
    split; [|exact En]. destruct En as (he & k & St & _). unfold settle. rewrite St. reflexivity.
Qed.
Lemma receive_later P c b pad s s1 c1 ev1 i s' c' ev2 s2 : waiting c -> transport_step P c (TReceive (Some b) None pad) s = (Val (c1, ev1), s1) -> In (EvVerify i) ev1 ->
  transport_step P c1 (TAnswer true) s' = (Val (c', ev2), s2) -> tc_status c' = T_ACTIVE -> handled P c b c' (ev1 ++ ev2)%list.
Proof.
  intros (Wt & Wr & Ws) H Hi H' A. cbn [transport_step] in H, H'. unfold process_rx_buffer in H.
  assert (NoV : forall e c, ~ In (EvVerify i) (snd (set_error e c))).
  { intros e c0 X. destruct (set_error e c0) as [c2 ev] eqn:S. apply set_error_eq in S. destruct S as [_ [-> | ->]]; [destruct X|destruct X as [X|[]]; discriminate]. }
  assert (Err : forall e x y, mret (set_error e c) x = (Val (c1, ev1), y) -> handled P c b c' (ev1 ++ ev2)).
  { intros e x y E. apply mret_Val in E. destruct E as [E _]. destruct (NoV e c). rewrite <- E. exact Hi. }
  assert (Go : forall x, mbind (mres (rtry (tpacket_create_from_buffer (Some b)))) (fun packet => match packet with None => mret (set_error E_INVALID_RXDATA c) | Some pkt =>
     if can_process_handshake c && (body_type (tm_body (tp_meta pkt)) =? 0) then process_handshake_packet P c pkt None
          else match tc_rx c with
               | Some rx =>
                   let '(r, rx') := decode_pkt P rx pkt pad in
                   let c := set_streams (tc_tx c) (Some rx') c in
                   mbind (mres (rtry r)) (fun d =>
                   match d with
                   | None => mret (set_error E_PACKET_DECODE_FAILED c)
                   | Some data => mret (c, [EvRx data])
                   end)
               | None => mret (set_error E_BAD_RX_STATE c)
               end end) x = (Val (c1, ev1), s1) -> handled P c b c' (ev1 ++ ev2)).
  2:{ destruct (tc_status c) eqn:St; try exact (Go _ H). inv_ret H. destruct H as [-> ->]. destruct Hi. }
  clear H. intros x H. apply mbind_Val in H. destruct H as (packet & t1 & Hp & H). apply mres_Val in Hp. destruct Hp as [Hp ->].
  destruct packet as [pkt|]; [|exact (Err _ _ _ H)]. destruct (_ && _).
  2:{ rewrite Wr in H. exact (Err _ _ _ H). }
  assert (Pk : tpacket_create_from_buffer (Some b) = Val pkt) by (destruct (tpacket_create_from_buffer (Some b)); cbn in Hp; congruence).
  unfold process_handshake_packet in H.
  destruct (match tc_handshake c with Some h => Some h | None => create_handshake c end) as [h|] eqn:Eh; [|exact (Err _ _ _ H)].
  apply mbind_Val in H. destruct H as ([[h1 q] a] & t2 & H1 & H). cbv zeta in H. apply mbind_Val in H. destruct H as ([c2 ev3] & t3 & H2 & H). apply mbind_Val in H. destruct H as ([c3 ev4] & t4 & H3 & H).
  inv_ret H. destruct H as [-> ->].
  destruct a as [j|].
  - destruct (asked_status _ _ _ _ _ _ _ _ j H1 eq_refl) as [St ->]. inv_ret H2. destruct H2 as [-> ->].
    unfold after_handshake in H3. cbn [tc_handshake set_thandshake] in H3. rewrite St in H3. apply mbind_Val in H3. destruct H3 as ([c4 ev5] & t5 & H3 & H4). inv_ret H3. destruct H3 as [-> ->].
    cbn [tc_handshake set_thandshake handshake_status] in H4. rewrite St in H4. inv_ret H4. destruct H4 as [-> ->]. cbn [app].
    apply answer_active in H'; [|exact Ws|exact St]. destruct H' as [(NA & _)|(_ & h2 & p & Se & En)]; [congruence|].
    exists h, pkt, x, h1, None, (Some j), h2, p. split; [exact Eh|]. split; [exact Pk|]. split; [rewrite H1; reflexivity|]. split; [exact Se|].
    change (EvVerify j :: ev2) with ([EvVerify j] ++ ev2)%list. apply ends_with_more; [intros b0 [X|[]]; discriminate|exact En].
  - exfalso. inv_ret H2. destruct H2 as [-> ->]. cbn [app] in Hi. revert H3 Hi. clear -NoV. unfold after_handshake. cbn [tc_handshake set_thandshake]. intros H Hi.
    apply mbind_Val in H. destruct H as ([c4 ev5] & t5 & H3 & H4).
    assert (N5 : ~ In (EvVerify i) ev5).
    { assert (Same : forall x y, mret (set_thandshake (Some h1) c, @nil tevent) x = (Val (c4, ev5), y) -> ~ In (EvVerify i) ev5) by (intros x0 y E; inv_ret E; destruct E as [_ ->]; intros []).
      destruct (hs_status h1); try exact (Same _ _ H3). unfold finalize_handshake in H3. apply mbind_Val in H3. destruct H3 as ([h' k] & u1 & _ & H).
      destruct k as [k|]; [|inv_ret H; destruct H as [_ ->]; intros []]. cbv zeta in H. apply mbind_Val in H. destruct H as ([tx|] & u2 & _ & H); [|inv_ret H; destruct H as [_ ->]; intros []].
      apply mbind_Val in H. destruct H as ([rx|] & u3 & _ & H); [|inv_ret H; destruct H as [_ ->]; intros []]. apply mret_Val in H. destruct H as [H _]. symmetry in H. apply update_eq in H.
      destruct H as [_ [-> | ->]]; intros X; [destruct X|destruct X as [X|[]]; discriminate]. }
    assert (Err : forall e x y, (let '(c'0, ev') := set_error e c4 in mret (c'0, (ev5 ++ ev')%list)) x = (Val (c3, ev4), y) -> False).
    { intros e x0 y E. pose proof (NoV e c4) as NV. destruct (set_error e c4) as [c5 ev6]. inv_ret E. destruct E as [_ ->]. apply in_app_or in Hi. cbn [snd] in NV. tauto. }
    assert (Go : (match q with None => mret (c4, ev5) | Some p => match tpacket_serialize p with
       | None => let '(c'0, ev') := set_error E_PACKET_SERIALIZATION_FAILED c4 in mret (c'0, (ev5 ++ ev')%list) | Some b => mret (c4, (ev5 ++ [EvTx b])%list) end end) t5 = (Val (c3, ev4), t4) -> False).
    { intros E. destruct q as [p|]; [|inv_ret E; destruct E as [_ ->]; tauto]. destruct (tpacket_serialize p); [|exact (Err _ _ _ E)]. inv_ret E. destruct E as [_ ->].
      apply in_app_or in Hi. destruct Hi as [Hi|[Hi|[]]]; [tauto|discriminate]. }
    destruct (handshake_status (tc_handshake c4)); try exact (Go H4). exact (Err _ _ _ H4).
Qed.
Lemma receives_handled P c b c' ev : waiting c -> receives P c b c' ev -> tc_status c' = T_ACTIVE -> handled P c b c' ev.
Proof.
  intros W (pad & s & [H|(s' & c1 & ev1 & i & ev2 & H1 & Hi & H2 & ->)]) A.
  - apply fst_Val3 in H. destruct H as [t H]. exact (receive_now _ _ _ _ _ _ _ _ W H A).
  - apply fst_Val3 in H1, H2. destruct H1 as [t1 H1], H2 as [t2 H2]. exact (receive_later _ _ _ _ _ _ _ _ _ _ _ _ _ W H1 Hi H2 A).
Qed.
Lemma start_sends P c s c1 ev w s' : waiting c -> transport_step P c TStart s = (Val (c1, ev), s') -> In (EvTx w) ev ->
  exists h s1 h' p, create_handshake c = Some h /\ fst (handshake_start P h s1) = Val (h', Some p) /\ tpacket_serialize p = Some w /\ tc_handshake c1 = Some h' /\ waiting c1.
Proof.
  intros W H Hw. cbn [transport_step] in H. unfold transport_start in H.
  assert (Err : forall e d x y, mret (set_error e d) x = (Val (c1, ev), y) -> False).
  { intros e d x y E. apply mret_Val in E. destruct E as [E _]. symmetry in E. apply set_error_eq in E. destruct E as [_ [-> | ->]]; [destruct Hw|destruct Hw as [Hw|[]]; discriminate]. }
  destruct (tc_status c) eqn:Stc; try (destruct (Err _ _ _ _ H)). destruct (create_handshake c) as [h|] eqn:Ch; [|destruct (Err _ _ _ _ H)].
  apply mbind_Val in H. destruct H as ([h' pkt] & s1 & H1 & H). destruct pkt as [p|]; [|destruct (Err _ _ _ _ H)].
  pose proof (start_body _ _ _ _ _ _ H1) as (_ & St & _). rewrite St in H. destruct (tpacket_serialize p) as [b|] eqn:Sp; [|destruct (Err _ _ _ _ H)].
  destruct (update_status T_INITIAL_HANDSHAKE (set_thandshake (Some h') c)) as [c2 ev1] eqn:U. apply update_eq in U. destruct U as [-> U]. inv_ret H. destruct H as [-> ->].
  exists h, s, h', p. split; [reflexivity|]. split; [rewrite H1; reflexivity|]. split; [|split; [reflexivity|]].
  - apply in_app_or in Hw. destruct Hw as [Hw|[Hw|[]]]; [|congruence]. destruct U as [-> | ->]; [destruct Hw|destruct Hw as [Hw|[]]; discriminate].
  - destruct W as (W1 & W2 & _). repeat split; try assumption. discriminate.
Qed.

Lemma good_identity_copy P x y : good_identity P x -> identity_copy (Some x) = Some y -> y = x.
Proof.
  intros (_ & _ & G) H. pose proof (identity_copy_same _ _ H) as (E1 & E2 & E3 & _). unfold identity_copy in H.
  destruct (buffer_copy _); [|discriminate]. destruct (ec_key_copy _); [|discriminate]. unfold identity_create in H. destruct (MAX_IDENTIFIER_LEN <=? _); [discriminate|].
  apply Some_inj in H. assert (E4 : id_signature y = ecdsa_result_copy (id_signature x)) by (subst y; reflexivity). clear H.
  assert (E5 : ecdsa_result_copy (id_signature x) = id_signature x).
  { destruct (id_type x); [rewrite G; reflexivity|]. destruct G as (sg & -> & Gs). unfold ecdsa_result_copy. rewrite copy_limit; [destruct sg; reflexivity|].
    unfold good_sig in Gs. unfold within_limit, library_limit, blen. lia. }
  rewrite E5 in E4. destruct x, y. cbn in *. congruence.
Qed.
Lemma good_chain_copy P c c' : good_chain P c -> chain_copy (Some c) = Some c' -> c' = c.
Proof.
  intros [G1 G2] H. apply chain_copy_same in H. destruct H as (A & B & C & D). apply (good_identity_copy P _ _ G1) in A. apply (good_identity_copy P _ _ G2) in B.
  destruct c, c'. cbn in *. congruence.
Qed.
Lemma sig_copied s : good_sig s -> ecdsa_result_copy (Some s) = Some s.
Proof.
  intros G. unfold ecdsa_result_copy. rewrite copy_limit; [destruct s; reflexivity|]. unfold good_sig in G. unfold within_limit, library_limit, blen. lia.
Qed.
Lemma public_copy P r r' x : good_identity P x -> public_identity r = public_identity x -> identity_copy (Some r) = Some r' -> public_identity r' = public_identity x.
Proof.
  intros (_ & _ & G) E H. pose proof (identity_copy_same _ _ H) as (E1 & E2 & E3 & _). unfold identity_copy in H.
  destruct (buffer_copy _); [|discriminate]. destruct (ec_key_copy _); [|discriminate]. unfold identity_create in H. destruct (MAX_IDENTIFIER_LEN <=? _); [discriminate|].
  apply Some_inj in H. assert (E4 : id_signature r' = ecdsa_result_copy (id_signature r)) by (subst r'; reflexivity). clear H. rewrite <- E.
  assert (S : id_signature r = id_signature x) by exact (f_equal id_signature E). 
  assert (E5 : ecdsa_result_copy (id_signature r) = id_signature r).
  { rewrite S. destruct (id_type x); [rewrite G; reflexivity|]. destruct G as (sg & -> & Gs). apply sig_copied, Gs. }
  unfold public_identity. rewrite E1, E2, E3, E4, E5. reflexivity.
Qed.
Lemma knows_copy P r x : good_chain P x -> knows r x -> knows (chain_copy r) x.
Proof.
  intros [G1 G2] K. destruct r as [r|]; [|exact I]. destruct (chain_copy (Some r)) as [r'|] eqn:C; [|exact I]. cbn [knows] in *.
  apply chain_copy_same in C. destruct C as (A & B & _ & _).
  assert (K1 : public_identity (ch_root r) = public_identity (ch_root x)) by exact (f_equal ch_root K).
  assert (K2 : public_identity (ch_node r) = public_identity (ch_node x)) by exact (f_equal ch_node K).
  unfold public_chain. rewrite (public_copy P _ _ _ G1 K1 A), (public_copy P _ _ _ G2 K2 B). reflexivity.
Qed.
Lemma created P l r evo c : good_chain P l -> transport_create (Some l) r evo = Some c -> waiting c /\ 1 <= tc_evo c <= 32768 /\
  tc_handshake c = None /\ forall h, create_handshake c = Some h -> handshake_create (Some l) (chain_copy r) (tc_evo c) = Some h.
Proof.
  intros G. unfold transport_create. destruct (N.ltb_spec PACKET_PER_EVO_MAX evo) as [L|L]; [discriminate|]. intros H. apply Some_inj in H. subst c.
  split; [repeat split; discriminate|]. cbn [tc_evo tc_handshake]. split.
  - change PACKET_PER_EVO_MAX with 32768 in L. destruct (N.eqb_spec evo 0); [split; discriminate|lia].
  - split; [reflexivity|]. intros h. unfold create_handshake. cbn [tc_local tc_remote tc_evo]. destruct (chain_copy (Some l)) as [l'|] eqn:C; [|discriminate]. apply (good_chain_copy P _ _ G) in C. subst l'. auto.
Qed.
Lemma direction_good P salt secret info x evo : hkdf_ok P -> p_hkdf P SHA512 salt secret info 64 = Some x -> 1 <= evo <= 32768 -> good_stream_key (direction_key x evo).
Proof.
  intros [HO _] H E. apply HO in H. unfold good_stream_key, direction_key, good_key. cbn [sk_cipher ck_cipher ck_data sk_evo sk_ppe sk_user].
  assert (L : length x = 64%nat) by (unfold blen in H; lia). split; [reflexivity|]. split; [rewrite firstn_length; lia|].
  split; [unfold within_limit, library_limit, blen; rewrite skipn_length; lia|]. split; [exact E|discriminate].
Qed.
(* what the two contexts have in common *)
Theorem contexts_agree P a b ra rb ea eb ca cb w1 w2 ca' cb' :
  ec_ok P -> gen_ok P -> ecdh_ok P -> sign_ok P -> ctr_ok P -> aead_ok P -> rand_ok P -> hkdf_ok P ->
  good_chain P a -> good_chain P b -> engine_key P (id_key (ch_node a)) -> engine_key P (id_key (ch_node b)) ->
  transport_create (Some a) ra ea = Some ca -> transport_create (Some b) rb eb = Some cb -> knows ra b -> knows rb a ->
  connected P ca cb w1 w2 ca' cb' ->
  tc_handshake ca' = None /\ tc_handshake cb' = None /\
  exists x y, good_stream_key x /\ good_stream_key y /\ fresh_streams P ca' x y /\ fresh_streams P cb' y x.
Proof.
  intros EO GO DO SO CO AO RO KO GA GB EA EB CA CB KA KB (s & c1 & ev1 & ev2 & ev3 & H1 & Hw1 & R2 & Hw2 & A2 & R3 & A3).
  destruct (created P _ _ _ _ GA CA) as (Wa & _ & Na & Ha). destruct (created P _ _ _ _ GB CB) as (Wb & Eb & Nb & Hb).
  apply fst_Val3 in H1. destruct H1 as [t1 H1]. destruct (start_sends _ _ _ _ _ _ _ Wa H1 Hw1) as (h & s1 & h1 & p1 & Ch & St & Sp & Nh & W1).
  destruct (receives_handled _ _ _ _ _ Wb R2 A2) as (g & pk1 & s2 & g1 & q1 & a1 & g2 & p2 & Hg & Pk1 & Pr1 & Se1 & (ge & kr & _ & Fg & Ng & Fr & Tx2)).
  destruct (receives_handled _ _ _ _ _ W1 R3 A3) as (h' & pk2 & s3 & h2 & q2 & a2 & h3 & p3 & Hh & Pk2 & Pr2 & Se2 & (he & ki & _ & Fh & Nhe & Fi & _)).
  unfold handshake_of in Hg, Hh. rewrite Nb in Hg. rewrite Nh in Hh. apply Some_inj in Hh. subst h'.
  destruct (Tx2 w2 Hw2) as (x2 & -> & Sx2).
  assert (Run : handshake_run P h g w1 w2 ki kr).
  { exists s1, s2, s3, h1, p1, pk1, g1, q1, a1, g2, x2, pk2, h2, q2, a2, h3, p3, he, ge. repeat (split; [assumption|]). assumption. }
  destruct (handshake_agreement P a b (chain_copy ra) (chain_copy rb) (tc_evo ca) (tc_evo cb) h g w1 w2 ki kr EO GO DO SO CO AO RO GA GB EA EB (Ha h Ch) (Hb g Hg)) as (n & secret & x & y & _ & Hx & Hy & E1 & E2 & E3 & E4).
  - eapply N.le_lt_trans; [apply Eb|reflexivity].
  - apply (knows_copy P); assumption.
  - apply (knows_copy P); assumption.
  - exact Run.
  - split; [exact Nhe|]. split; [exact Ng|]. exists (direction_key x (tc_evo cb)), (direction_key y (tc_evo cb)).
    split; [exact (direction_good P _ _ _ _ _ KO Hx Eb)|]. split; [exact (direction_good P _ _ _ _ _ KO Hy Eb)|]. rewrite <- E1, <- E2 at 1. split; [exact Fi|]. rewrite <- E3, <- E4. exact Fr.
Qed.
Theorem messages_end_to_end P a b ra rb ea eb ca cb w1 w2 ca' cb' ha ca2 hb cb2 :
  ec_ok P -> gen_ok P -> ecdh_ok P -> sign_ok P -> ctr_ok P -> aead_ok P -> rand_ok P -> hkdf_ok P -> hmac_ok P ->
  good_chain P a -> good_chain P b -> engine_key P (id_key (ch_node a)) -> engine_key P (id_key (ch_node b)) ->
  transport_create (Some a) ra ea = Some ca -> transport_create (Some b) rb eb = Some cb -> knows ra b -> knows rb a ->
  connected P ca cb w1 w2 ca' cb' -> reach P ca' ha ca2 -> reach P cb' hb cb2 ->
  (no_forgery P ha hb -> subsequence (delivered hb) (sent_data ha)) /\ (no_forgery P hb ha -> subsequence (delivered ha) (sent_data hb)).
Proof.
  intros EO GO DO SO CO AO RO KO MO GA GB EA EB CA CB KA KB Cn Ra Rb.
  destruct (contexts_agree P a b ra rb ea eb ca cb w1 w2 ca' cb' EO GO DO SO CO AO RO KO GA GB EA EB CA CB KA KB Cn) as (Na & Nb & x & y & Gx & Gy & Fa & Fb).
  destruct Cn as (s & c1 & ev1 & ev2 & ev3 & _ & _ & _ & _ & A2 & _ & A3). split; intros NF.
  - exact (messages_arrive_in_order P x y y ca' ha ca2 cb' hb cb2 MO CO AO Gx A3 Na Fa Ra A2 Nb Fb Rb NF).
  - exact (messages_arrive_in_order P y x x cb' hb cb2 ca' ha ca2 MO CO AO Gy A2 Nb Fb Rb A3 Na Fa Ra NF).
Qed.
