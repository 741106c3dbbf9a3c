(* Transport contexts. *)
From Coq Require Import ZifyBool ZifyNat ZifyN Sorted.
From Verif.Base Require Import Bytes Monad.
From Verif.Model Require Import Buffer Cipher Ecdsa Kdf Prims Engine Identity Proto Stream TransportPacket EcdhCipher Handshake Transport.
From Verif.Spec Require Import BufferSpec CodecSpec EngineSpec IdentitySpec StreamSpec TransportSpec HandshakeSpec.
From Verif.Proofs Require Import BytesFacts BufferFacts BufferProps CodecFacts EngineFacts ProtoFacts IdentityFacts CacheFacts TransportPacketFacts StreamFacts HandshakeFacts.
Ltac Zify.zify_post_hook ::= Z.div_mod_to_equations.
Local Open Scope N_scope.

Ltac inv_ret H := apply mret_Val in H; destruct H as [H ?]; apply pair_equal_spec in H.

(* --- packets of the handshake *)
Definition hs_body (p : tpacket) : Prop := exists v f, tm_body (tp_meta p) = Handshake v f.
Lemma sign_body P p c s b q s' : tpacket_sign P p c s = (Val (b, q), s') -> tm_body (tp_meta q) = tm_body (tp_meta p).
Proof.
  unfold tpacket_sign. intros H. destruct (tpacket_serialize _) as [data|].
  2:{ inv_ret H. destruct H as [-> ->]. reflexivity. }
  apply mbind_Val in H. destruct H as (sg & s1 & _ & H). destruct (ecdsa_result_serialize sg) as [m|].
  2:{ inv_ret H. destruct H as [-> ->]. reflexivity. }
  cbv zeta in H. inv_ret H. destruct H as [_ ->]. reflexivity.
Qed.
Lemma signed_is_handshake P m q c s b q' s' : handshake_to_packet m = Some q -> tpacket_sign P q c s = (Val (b, q'), s') -> hs_body q'.
Proof.
  intros H S. apply sign_body in S. unfold hs_body. rewrite S. unfold handshake_to_packet in H. destruct (pack_buffer _) as [x|]; [|discriminate].
  unfold tpacket_create in H. apply Some_inj in H. subst q. cbn. eauto.
Qed.
Lemma process_packet_body P h pkt s h' p s' : process_packet P h pkt s = (Val (h', Some p), s') -> hs_body p.
Proof.
  unfold process_packet. intros H. destruct (hs_status h); try (apply hfail_Val in H; destruct H; discriminate).
  - apply process_initial_Val in H. destruct H as [[_ H]|H]; [discriminate|].
    destruct H as (sd & pub & required & c & c' & parsed & eph & ctx & k & ser & kdf & r & rb & response & q & q' & s1 & s2 & s3 & s4 & s5 & s6 & s7 & _ & _ & _ & _ & _ & _ & _ & _ & _ & H).
    cbv zeta in H. destruct H as (_ & _ & _ & _ & A & B & E & _). apply Some_inj in E. subst q'. eapply signed_is_handshake; eassumption.
  - apply process_response_Val in H. destruct H as [[_ H]|[H _]]; discriminate.
Qed.
Definition pending_body (h : handshake) : Prop := hs_status h = H_PENDING_VERIFICATION -> forall x, hs_pending h = Some x -> hs_body x.
Lemma process_body P h p s h' q a s' : handshake_process P h p s = (Val (h', q, a), s') ->
  (forall x, q = Some x -> hs_body x) /\ pending_body h'.
Proof.
  unfold handshake_process. intros H.
  assert (Fail : forall x y, mret (set_hstatus H_FAILED h, @None tpacket, @None chain) x = (Val (h', q, a), y) ->
    (forall x, q = Some x -> hs_body x) /\ pending_body h').
  { intros x y E. inv_ret E. destruct E as [E _]. apply pair_equal_spec in E. destruct E as [-> ->]. split; [discriminate|]. intros X. discriminate. }
  destruct p as [pkt|]; [|exact (Fail _ _ H)]. destruct (negb _); [exact (Fail _ _ H)|].
  assert (Go : mbind (process_packet P h pkt) (fun r => let '(h'0, p) := r in
      match hs_status h'0 with H_FAILED => mret (h'0, None, None) | H_PENDING_VERIFICATION => mret (set_pending p h'0, None, chain_copy (hs_remote h'0)) | _ => mret (h'0, p, None) end) s = (Val (h', q, a), s') ->
    (forall x, q = Some x -> hs_body x) /\ pending_body h').
  { clear H. intros H. apply mbind_Val in H. destruct H as ([h1 p1] & s1 & H1 & H). 
    assert (B : forall x, p1 = Some x -> hs_body x) by (intros x ->; eapply process_packet_body; exact H1).
    destruct (hs_status h1) eqn:St; inv_ret H; destruct H as [H _]; apply pair_equal_spec in H; destruct H as [-> ->]; (split; [first [exact B|discriminate]|]); intros X; try congruence.
    intros x Hx. apply B. exact Hx. }
  destruct (hs_status h); try exact (Fail _ _ H); exact (Go H).
Qed.
Lemma start_body P h s h' p s' : handshake_start P h s = (Val (h', Some p), s') -> hs_body p /\ hs_status h' = H_IN_PROGRESS /\ hs_remote h' = hs_remote h.
Proof.
  intros H. apply start_Val in H. destruct H as [[_ H]|(_ & k & seed & pkt & q & s1 & s2 & _ & _ & A & B & E & ->)]; [discriminate|].
  apply Some_inj in E. subst q. split; [eapply signed_is_handshake; eassumption|]. split; reflexivity.
Qed.

(* --- status changes *)
Lemma update_eq s c c' ev : update_status s c = (c', ev) -> c' = set_tstatus s c /\ (ev = [] \/ ev = [EvState s]).
Proof.
  unfold update_status. destruct (tstatus_eqb (tc_status c) s) eqn:E; intros H; apply pair_equal_spec in H; destruct H as [<- <-]; [|auto].
  split; [|auto]. destruct c as [a b t r h st e er]. cbn [tc_status] in E. unfold set_tstatus. cbn. destruct st, s; try discriminate; reflexivity.
Qed.
Definition errored (e : terror) (c : transport) : transport := set_tstatus T_ERROR (set_terr e c).
Lemma set_error_eq e c c' ev : set_error e c = (c', ev) -> c' = errored e c /\ (ev = [] \/ ev = [EvState T_ERROR]).
Proof. apply update_eq. Qed.

Lemma stream_key_copy_same k k' : stream_key_copy (Some k) = Some k' -> k' = k.
Proof.
  unfold stream_key_copy. destruct (cipher_key_copy (Some (sk_cipher k))) as [c|] eqn:C; [|discriminate]. apply key_copy_same in C. subst c.
  destruct (buffer_copy (Some (sk_evo k))) as [e|] eqn:E; [|discriminate]. apply buffer_copy_Some in E. destruct E as [E _]. apply Some_inj in E. subst e.
  destruct (sk_user k) as [u|] eqn:U.
  - destruct (buffer_copy (Some u)) as [v|] eqn:V; [|discriminate]. apply buffer_copy_Some in V. destruct V as [V _]. apply Some_inj in V. subst v.
    unfold stream_key_create_user_data. destruct (_ || _); [discriminate|]. intros H. apply Some_inj in H. subst k'. destruct k. cbn in *. congruence.
  - cbn [buffer_copy]. unfold stream_key_create_user_data. destruct (_ || _); [discriminate|]. intros H. apply Some_inj in H. subst k'. destruct k. cbn in *. congruence.
Qed.

(* what a finished handshake gives is good for streams *)
Definition sized_key (k : stream_key) : Prop := good_key (sk_cipher k) /\ within_limit (blen (sk_evo k)) /\ 1 <= sk_ppe k <= 32768 /\ sk_user k = None.
Lemma sized_of_root P k salt id d sk : root_key_to_stream_key P k salt id d = Val sk -> sized_key sk.
Proof.
  unfold root_key_to_stream_key. intros H. apply rbind_Val in H. destruct H as (raw & _ & H). destruct (_ =? _) in H; [|discriminate H].
  apply rbind_Val in H. destruct H as (d1 & H1 & H). apply lift_Val' in H1. apply rbind_Val in H. destruct H as (ck & H2 & H). apply lift_Val' in H2.
  apply rbind_Val in H. destruct H as (d2 & H3 & H). apply lift_Val' in H3. apply lift_Val' in H. unfold cipher_key_create in H2. destruct (N.eqb_spec (blen d1) (key_len (rk_cipher k))) as [L1|]; [|discriminate H2].
  apply Some_inj in H2. subst ck. apply copy_section_Some in H3. destruct H3 as (_ & L2 & _). unfold stream_key_create, stream_key_create_user_data in H.
  destruct (N.ltb_spec (match d with ENCODE => rk_send k | DECODE => rk_recv k end) PACKET_PER_EVO_MIN) as [|A]; [discriminate H|]. destruct (N.ltb_spec PACKET_PER_EVO_MAX (match d with ENCODE => rk_send k | DECODE => rk_recv k end)) as [|B]; [discriminate H|]. 
  cbn [orb] in H. apply Some_inj in H. subst sk. unfold sized_key, good_key. cbn [sk_cipher ck_data sk_evo sk_ppe sk_user].
  assert (K : key_len (rk_cipher k) = 32) by (destruct (rk_cipher k); reflexivity). rewrite K in L1, L2. split; [unfold blen in L1; lia|]. split; [rewrite L2; split; [reflexivity|discriminate]|]. split; [|reflexivity].
  change PACKET_PER_EVO_MIN with 1 in A. change PACKET_PER_EVO_MAX with 32768 in B. split; assumption.
Qed.
Lemma finalize_sized P h h' k : handshake_finalize P h = Val (h', Some k) -> sized_key (hr_local k) /\ sized_key (hr_remote k).
Proof.
  unfold handshake_finalize. cbv zeta. intros H.
  assert (F : Val (set_hstatus H_FAILED h, @None handshake_res) = Val (h', Some k) -> False) by (intros X; apply Val_inj in X; apply pair_equal_spec in X; destruct X as [_ X]; discriminate).
  destruct (hs_root h) as [r|]; [|destruct (F H)]. destruct (hs_status h); try (destruct (F H)).
  destruct (buffer_concat _ _) as [t|]; [|destruct (F H)]. destruct (sha2 P _ _ _) as [t'|]; [|destruct (F H)].
  apply rbind_Val in H. destruct H as (a & Ha & H). apply rbind_Val in H. destruct H as (b & Hb & H).
  destruct a as [a|]; [|destruct (F H)]. destruct b as [b|]; [|destruct (F H)]. apply Val_inj in H. apply pair_equal_spec in H. destruct H as [_ H]. apply Some_inj in H. subst k.
  unfold rtry in Ha, Hb. destruct (root_key_to_stream_key P r t' str_sender ENCODE) as [a'| |] eqn:E1; try discriminate. apply Val_inj in Ha. apply Some_inj in Ha. subst a'.
  destruct (root_key_to_stream_key P r t' str_receiver DECODE) as [b'| |] eqn:E2; try discriminate. apply Val_inj in Hb. apply Some_inj in Hb. subst b'.
  apply sized_of_root in E1, E2. destruct (hs_initiator h); split; assumption.
Qed.
Lemma created_good P k d s c s' : sized_key k -> stream_ctx_create P (Some k) d s = (Val c, s') -> good_stream_key k.
Proof.
  intros (A & B & C & D) H. unfold stream_ctx_create in H. destruct (ck_cipher (sk_cipher k)) eqn:E; [|discriminate H]. split; [exact E|]. split; [exact A|]. split; [exact B|]. split; [exact C|].
  intros u U. rewrite D in U. discriminate.
Qed.

(* --- the two phases of a context *)
Definition waiting (c : transport) : Prop := tc_tx c = None /\ tc_rx c = None /\ tc_status c <> T_ACTIVE.
Definition fresh (P : prims) (c : transport) : Prop :=
  tc_handshake c = None /\ (tc_status c = T_ACTIVE \/ tc_status c = T_ERROR) /\ exists ks kr, good_stream_key ks /\ good_stream_key kr /\ fresh_streams P c ks kr.
Definition running (c : transport) : Prop :=
  tc_handshake c = None /\ (tc_status c = T_ACTIVE \/ tc_status c = T_ERROR) /\ (exists tx, tc_tx c = Some tx) /\ (exists rx, tc_rx c = Some rx).
Lemma fresh_running P c : fresh P c -> running c.
Proof. intros (A & B & ks & kr & _ & _ & tx & rx & s1 & s2 & s3 & s4 & C & D & _). repeat split; eauto. Qed.
Definition same_ends (c c' : transport) : Prop := tc_local c' = tc_local c /\ tc_remote c' = tc_remote c /\ tc_evo c' = tc_evo c.
(* events of a handshake *)
Definition hevent (e : tevent) : Prop := match e with EvState _ => True | EvTx b => handshake_bytes b | EvRx _ => False | EvVerify _ => True end.

Definition hgood (pinned : option chain) (A Q : Prop) (h : handshake) : Prop :=
  pending_body h /\
  match hs_status h with
  | H_UNKNOWN | H_IN_PROGRESS => match pinned with None => hs_remote h = None | Some r => exists r', hs_remote h = Some r' /\ same_identities r' r end
  | H_PENDING_VERIFICATION => A /\ hs_root h <> None
  | H_PENDING_FINALIZATION | H_COMPLETE => Q
  | H_FAILED => True
  end.
Definition phase (P : prims) (pinned : option chain) (A Q : Prop) (c : transport) : Prop :=
  waiting c /\ (forall h, tc_handshake c = Some h -> hgood pinned A Q h) \/ fresh P c /\ Q.
Lemma hgood_more pinned (A Q A' Q' : Prop) h : (A -> A') -> (Q -> Q') -> hgood pinned A Q h -> hgood pinned A' Q' h.
Proof. intros X Y [B H]. split; [exact B|]. destruct (hs_status h); intuition auto. Qed.
Lemma phase_more P pinned (A Q A' Q' : Prop) c : (A -> A') -> (Q -> Q') -> phase P pinned A Q c -> phase P pinned A' Q' c.
Proof. intros X Y [[W H]|[F q]]; [left|right; auto]. split; [exact W|]. intros h E. eapply hgood_more; eauto. Qed.

Lemma phase_error P pinned A Q e c : phase P pinned A Q c -> phase P pinned A Q (errored e c).
Proof.
  intros [[(W1 & W2 & W3) H]|[(F1 & F2 & ks & kr & F0 & F00 & F) q]].
  - left. split; [|exact H]. repeat split; try assumption. discriminate.
  - right. split; [|exact q]. split; [exact F1|]. split; [right; reflexivity|]. exists ks, kr. auto.
Qed.
Lemma same_ends_refl c : same_ends c c.
Proof. repeat split. Qed.
Lemma same_ends_trans a b c : same_ends a b -> same_ends b c -> same_ends a c.
Proof. intros (A & B & C) (D & E & F). repeat split; congruence. Qed.
Lemma error_ends e c : same_ends c (errored e c).
Proof. repeat split. Qed.

Lemma finalize_handshake_ok P pinned (A Q : Prop) c h s c' ev s' : waiting c -> Q -> hs_status h = H_PENDING_FINALIZATION -> tc_handshake c = Some h ->
  finalize_handshake P c h s = (Val (c', ev), s') ->
  phase P pinned A Q c' /\ Forall hevent ev /\ same_ends c c' /\ (In (EvState T_ACTIVE) ev -> fresh P c').
Proof.
  intros W q St Eh. unfold finalize_handshake. intros H. apply mbind_Val in H. destruct H as ([h' k] & s1 & H1 & H). apply mres_Val in H1. destruct H1 as [H1 ->].
  assert (SZ : forall x, k = Some x -> sized_key (hr_local x) /\ sized_key (hr_remote x)) by (intros x ->; exact (finalize_sized _ _ _ _ H1)).
  apply finalize_Val in H1. destruct W as (W1 & W2 & W3). destruct k as [k|].
  2:{ inv_ret H. destruct H as [-> ->]. destruct H1 as [[F _]|(_ & _ & _ & X & _)]; [|congruence]. split.
      - left. split; [repeat split; assumption|]. cbn [tc_handshake set_thandshake]. intros h0 E. apply Some_inj in E. subst h0. split; [intros X; congruence|]. rewrite F. exact I.
      - split; [constructor|]. split; [repeat split|]. intros []. }
  assert (Lost : forall x y, mret (set_thandshake None c, @nil tevent) x = (Val (c', ev), y) ->
    phase P pinned A Q c' /\ Forall hevent ev /\ same_ends c c' /\ (In (EvState T_ACTIVE) ev -> fresh P c')).
  { intros x y E. inv_ret E. destruct E as [-> ->]. split; [left; split; [repeat split; assumption|discriminate]|]. split; [constructor|]. split; [repeat split|]. intros []. }
  cbv zeta in H. apply mbind_Val in H. destruct H as (tx & s2 & Ht & H). destruct tx as [tx|]; [|exact (Lost _ _ H)].
  apply mbind_Val in H. destruct H as (rx & s3 & Hr & H). destruct rx as [rx|]; [|exact (Lost _ _ H)].
  apply mtry_Val in Ht, Hr. 
  destruct (stream_key_copy (Some (hr_local k))) as [ks|] eqn:Ks; [|discriminate Ht]. destruct (stream_key_copy (Some (hr_remote k))) as [kr|] eqn:Kr; [|discriminate Hr].
  apply stream_key_copy_same in Ks, Kr. subst ks kr. destruct (SZ k eq_refl) as [Z1 Z2]. apply (created_good _ _ _ _ _ _ Z1) in Ht as G1. apply (created_good _ _ _ _ _ _ Z2) in Hr as G2.
  apply mret_Val in H. destruct H as [H _]. symmetry in H. apply update_eq in H. destruct H as [-> E]. split.
  { right. split; [|exact q]. split; [reflexivity|]. split; [left; reflexivity|]. exists (hr_local k), (hr_remote k). split; [exact G1|]. split; [exact G2|]. exists tx, rx. do 4 eexists. split; [reflexivity|]. split; [reflexivity|]. split; eassumption. }
  split; [destruct E as [-> | ->]; repeat constructor|]. split; [repeat split|]. intros _.
  split; [reflexivity|]. split; [left; reflexivity|]. exists (hr_local k), (hr_remote k). split; [exact G1|]. split; [exact G2|]. exists tx, rx. do 4 eexists. split; [reflexivity|]. split; [reflexivity|]. split; eassumption.
Qed.
Lemma fresh_error P e c : fresh P c -> fresh P (errored e c).
Proof. intros (F1 & F2 & ks & kr & F). split; [exact F1|]. split; [right; reflexivity|]. exists ks, kr. auto. Qed.
Lemma after_handshake_ok P pinned (A Q : Prop) c volley f u s c' ev s' : phase P pinned A Q c -> (forall p, volley = Some p -> hs_body p) ->
  after_handshake P c volley f u s = (Val (c', ev), s') ->
  phase P pinned A Q c' /\ Forall hevent ev /\ same_ends c c' /\ (In (EvState T_ACTIVE) ev \/ fresh P c -> fresh P c') /\
  (tc_handshake c = None -> tc_handshake c' = None).
Proof.
  intros Ph VB H. unfold after_handshake in H. apply mbind_Val in H. destruct H as ([c1 ev1] & s1 & H1 & H).
  assert (K : phase P pinned A Q c1 /\ Forall hevent ev1 /\ same_ends c c1 /\ (In (EvState T_ACTIVE) ev1 \/ fresh P c -> fresh P c1) /\ (tc_handshake c = None -> tc_handshake c1 = None)).
  { assert (Same : forall x y, mret (c, @nil tevent) x = (Val (c1, ev1), y) ->
      phase P pinned A Q c1 /\ Forall hevent ev1 /\ same_ends c c1 /\ (In (EvState T_ACTIVE) ev1 \/ fresh P c -> fresh P c1) /\ (tc_handshake c = None -> tc_handshake c1 = None)).
    { intros x y E. inv_ret E. destruct E as [-> ->]. split; [exact Ph|]. split; [constructor|]. split; [apply same_ends_refl|]. split; [intros [[]|F]; exact F|auto]. }
    destruct (tc_handshake c) as [h|] eqn:Eh; [|exact (Same _ _ H1)]. destruct (hs_status h) eqn:St; try exact (Same _ _ H1).
    destruct Ph as [[W G]|[(F & _) _]]; [|congruence]. destruct (G h Eh) as [_ q]. rewrite St in q.
    destruct (finalize_handshake_ok P pinned A Q c h _ _ _ _ W q St Eh H1) as (X1 & X2 & X3 & X4). split; [exact X1|]. split; [exact X2|]. split; [exact X3|].
    split; [|discriminate]. intros [F|(F & _)]; [exact (X4 F)|congruence]. }
  destruct K as (K1 & K2 & K3 & K4 & K5).
  assert (Err : forall e x y, (let '(c'0, ev') := set_error e c1 in mret (c'0, (ev1 ++ ev')%list)) x = (Val (c', ev), y) ->
    phase P pinned A Q c' /\ Forall hevent ev /\ same_ends c c' /\ (In (EvState T_ACTIVE) ev \/ fresh P c -> fresh P c') /\ (tc_handshake c = None -> tc_handshake c' = None)).
  { intros e x y E. destruct (set_error e c1) as [c2 ev2] eqn:S. apply set_error_eq in S. destruct S as [-> S]. inv_ret E. destruct E as [-> ->].
    split; [apply phase_error, K1|]. split; [apply Forall_app; split; [exact K2|destruct S as [-> | ->]; repeat constructor]|].
    split; [exact (same_ends_trans _ _ _ K3 (error_ends _ _))|]. split; [|exact K5]. intros [F|F]; apply fresh_error, K4; [|right; exact F].
    apply in_app_or in F. destruct F as [F|F]; [left; exact F|]. destruct S as [-> | ->]; [destruct F|]. destruct F as [F|[]]. discriminate. }
  assert (Go : (match volley with None => mret (c1, ev1) | Some p => match tpacket_serialize p with
     | None => let '(c'0, ev') := set_error u c1 in mret (c'0, (ev1 ++ ev')%list) | Some b => mret (c1, (ev1 ++ [EvTx b])%list) end end) s1 = (Val (c', ev), s') ->
    phase P pinned A Q c' /\ Forall hevent ev /\ same_ends c c' /\ (In (EvState T_ACTIVE) ev \/ fresh P c -> fresh P c') /\ (tc_handshake c = None -> tc_handshake c' = None)).
  { intros E. destruct volley as [p|].
    2:{ inv_ret E. destruct E as [-> ->]. auto. }
    destruct (tpacket_serialize p) as [b|] eqn:Sb; [|exact (Err _ _ _ E)]. inv_ret E. destruct E as [-> ->]. split; [exact K1|].
    split; [apply Forall_app; split; [exact K2|]; constructor; [|constructor]; destruct (VB p eq_refl) as (v & g & B); exists p, v, g; auto|].
    split; [exact K3|]. split; [|exact K5]. intros [F|F]; apply K4; [|right; exact F]. apply in_app_or in F. destruct F as [F|[F|[]]]; [left; exact F|discriminate]. }
  destruct (handshake_status (tc_handshake c1)); try exact (Go H). exact (Err _ _ _ H).
Qed.
Lemma verify_good pinned (A Q Q' : Prop) h v h' p : hgood pinned A Q h -> handshake_verify_identity h v = (h', p) -> (A -> v = true -> Q') ->
  hgood pinned False Q' h' /\ (forall x, p = Some x -> hs_body x).
Proof.
  intros [B G] H AQ. unfold handshake_verify_identity in H.
  assert (F : forall X Y, (set_root None (set_hstatus H_FAILED h), @None tpacket) = (X, Y) -> hgood pinned False Q' X /\ (forall x, Y = Some x -> hs_body x)).
  { intros X Y E. apply pair_equal_spec in E. destruct E as [<- <-]. split; [|discriminate]. split; [intros Z; discriminate|exact I]. }
  destruct v; [|exact (F _ _ H)]. destruct (hs_status h) eqn:St; try exact (F _ _ H). apply pair_equal_spec in H. destruct H as [<- <-].
  destruct G as [a R]. destruct (hs_root h) as [k|]; [|congruence]. split; [|apply B, St]. split; [intros Z; discriminate|]. cbn. auto.
Qed.
Lemma waiting_handshake c h : waiting c -> waiting (set_thandshake h c).
Proof. intros W. exact W. Qed.
Lemma identity_complete_ok P pinned (A Q Q' : Prop) c v s c' ev s' : phase P pinned A Q c -> (A -> v = true -> Q') -> (Q -> Q') ->
  identity_complete P c v s = (Val (c', ev), s') ->
  phase P pinned False Q' c' /\ Forall hevent ev /\ same_ends c c' /\ (In (EvState T_ACTIVE) ev \/ fresh P c -> fresh P c') /\ (tc_handshake c = None -> tc_handshake c' = None).
Proof.
  intros Ph AQ QQ H. unfold identity_complete in H. destruct (tc_handshake c) as [h|] eqn:Eh.
  - destruct Ph as [[W G]|[(F & _) _]]; [|congruence]. destruct (handshake_verify_identity h v) as [h' p] eqn:V.
    destruct (verify_good pinned A Q Q' h v h' p (G h Eh) V AQ) as [G' B].
    apply (after_handshake_ok P pinned False Q') in H; [|left; split; [exact W|]; cbn [tc_handshake set_thandshake]; intros x E; apply Some_inj in E; subst x; exact G'|exact B].
    destruct H as (H1 & H2 & H3 & H4 & _). split; [exact H1|]. split; [exact H2|]. split; [exact H3|]. split; [|discriminate].
    intros [F|(F & _)]; [apply H4; left; exact F|congruence].
  - destruct Ph as [[W G]|[F q]].
    + apply (after_handshake_ok P pinned False Q') in H; [|left; split; [exact W|]; intros x E; congruence|discriminate].
      rewrite Eh in H. exact H.
    + apply (after_handshake_ok P pinned False Q') in H; [|right; auto|discriminate]. rewrite Eh in H. exact H.
Qed.
Lemma create_handshake_good c h (A Q : Prop) : copyable (tc_remote c) -> create_handshake c = Some h -> hgood (tc_remote c) A Q h.
Proof.
  intros Cp H. unfold create_handshake, handshake_create in H. destruct (chain_copy (Some (tc_local c))); [|discriminate]. destruct (tc_evo c =? 0); [discriminate|].
  apply Some_inj in H. subst h. split; [intros X; discriminate|]. cbn [hs_status hs_remote]. destruct (tc_remote c) as [r|]; [|reflexivity].
  destruct Cp as (r' & E & S). rewrite E. eauto.
Qed.

(* a handshake packet that is received *)
Definition asks (P : prims) (pkt : tpacket) (i : chain) : Prop := exists c, verified_by P pkt c /\ chain_truth P c = true /\ same_identities i c.
Lemma process_good P pinned (A Q : Prop) h pkt s h' q a s' : sha_ok P -> hgood pinned A Q h -> handshake_process P h (Some pkt) s = (Val (h', q, a), s') ->
  hgood pinned (pinned = None /\ exists i, a = Some i /\ asks P pkt i) (exists r c, pinned = Some r /\ verified_by P pkt c /\ same_identities c r) h' /\
  (forall x, q = Some x -> hs_body x) /\ (forall i, a = Some i -> q = None).
Proof.
  intros SO [B G] H. pose proof (process_body _ _ _ _ _ _ _ _ H) as [Bq Bh]. apply process_Val in H.
  destruct H as [(F & -> & ->)|(pkt' & c & c' & parsed & E & St & SC & CA & R & K & _ & _ & _ & H)].
  { split; [|split; [exact Bq|discriminate]]. split; [exact Bh|]. rewrite F. exact I. }
  apply Some_inj in E. subst pkt'.
  assert (Rm : match pinned with None => hs_remote h = None | Some r => exists r', hs_remote h = Some r' /\ same_identities r' r end) by (destruct St as [St|St]; rewrite St in G; exact G).
  destruct parsed.
  - destruct H as (St' & -> & ->). split; [|split; [exact Bq|reflexivity]]. split; [exact Bh|]. rewrite St'. split; [|exact K].
    destruct SC as ((N & m & Hm) & V & ->). split; [destruct pinned as [r|]; [destruct Rm as (r' & X & _); congruence|reflexivity]|].
    destruct (parsed_asked P m c pkt SO Hm) as (i & Hi & Si). exists i. split; [exact Hi|]. exists c. split; [exact V|]. split; [|exact Si].
    exact (parsed_truth _ _ _ Hm (verified_valid _ _ _ V)).
  - destruct H as (St' & ->). split; [|split; [exact Bq|discriminate]]. split; [exact Bh|]. rewrite St'. destruct SC as (N & V & _).
    destruct pinned as [r|]; [|congruence]. destruct Rm as (r' & X & Y). exists r, c. split; [reflexivity|]. split; [exact V|]. replace c with r' by congruence. exact Y.
Qed.
Lemma process_handshake_ok P (A Q : Prop) c pkt answer s c' ev s' : sha_ok P -> copyable (tc_remote c) -> phase P (tc_remote c) A Q c ->
  (tc_handshake c = None -> tc_status c = T_NONE) ->
  process_handshake_packet P c pkt answer s = (Val (c', ev), s') ->
  phase P (tc_remote c) (tc_remote c = None /\ exists i, In (EvVerify i) ev /\ asks P pkt i)
    ((exists r d, tc_remote c = Some r /\ verified_by P pkt d /\ same_identities d r) \/ (tc_remote c = None /\ exists i, In (EvVerify i) ev /\ asks P pkt i /\ answer = Some true)) c' /\
  Forall hevent ev /\ same_ends c c' /\ (In (EvState T_ACTIVE) ev -> fresh P c').
Proof.
  intros SO Cp Ph NS H. unfold process_handshake_packet in H.
  assert (W : waiting c /\ forall h, tc_handshake c = Some h -> hgood (tc_remote c) A Q h).
  { destruct Ph as [X|[(F1 & [F2|F2] & _) _]]; [exact X| |]; rewrite (NS F1) in F2; discriminate. }
  destruct W as [W G].
  destruct (match tc_handshake c with Some h => Some h | None => create_handshake c end) as [h|] eqn:Eh.
  2:{ apply mret_Val in H. destruct H as [H _]. symmetry in H. apply set_error_eq in H. destruct H as [-> E]. split.
      - apply phase_error. left. split; [exact W|]. intros h0 E0. rewrite E0 in Eh. discriminate.
      - split; [destruct E as [-> | ->]; repeat constructor|]. split; [apply error_ends|]. intros F. destruct E as [-> | ->]; [destruct F|]. destruct F as [F|[]]. discriminate. }
  assert (Gh : hgood (tc_remote c) A Q h).
  { destruct (tc_handshake c) as [h0|] eqn:E0; [apply Some_inj in Eh; subst h0; exact (G h eq_refl)|]. apply create_handshake_good; assumption. }
  clear G Eh. apply mbind_Val in H. destruct H as ([[h' q] a] & s1 & H1 & H). destruct (process_good P _ _ _ _ _ _ _ _ _ _ SO Gh H1) as (G' & Bq & Aq). clear H1.
  cbv zeta in H. apply mbind_Val in H. destruct H as ([c1 ev1] & s2 & H2 & H). apply mbind_Val in H. destruct H as ([c2 ev2] & s3 & H3 & H). inv_ret H. destruct H as [-> ->].
  set (c0 := set_thandshake (Some h') c) in *.
  set (QF := (exists r d, tc_remote c = Some r /\ verified_by P pkt d /\ same_identities d r) \/ (tc_remote c = None /\ exists i, In (EvVerify i) (ev1 ++ ev2)%list /\ asks P pkt i /\ answer = Some true)).
  set (AF := tc_remote c = None /\ exists i, In (EvVerify i) (ev1 ++ ev2)%list /\ asks P pkt i).
  assert (K : phase P (tc_remote c) AF QF c1 /\ Forall hevent ev1 /\ same_ends c0 c1 /\ (In (EvState T_ACTIVE) ev1 -> fresh P c1)).
  { destruct a as [i|].
    - destruct answer as [v|].
      + apply mbind_Val in H2. destruct H2 as ([c3 ev3] & s4 & H4 & H2). inv_ret H2. destruct H2 as [-> ->].
        apply (identity_complete_ok P (tc_remote c) (tc_remote c = None /\ exists i0, Some i = Some i0 /\ asks P pkt i0) (exists r d, tc_remote c = Some r /\ verified_by P pkt d /\ same_identities d r) QF) in H4.
        * destruct H4 as (X1 & X2 & X3 & X4 & _). split; [eapply phase_more; [| |exact X1]; [intros []|auto]|]. split; [constructor; [exact I|exact X2]|]. split; [exact X3|].
          intros [F|F]; [discriminate|]. apply X4. left. exact F.
        * left. split; [exact W|]. cbn. intros x E. apply Some_inj in E. subst x. exact G'.
        * intros (N & i0 & E & As) ->. right. split; [exact N|]. apply Some_inj in E. subst i0. exists i. split; [left; reflexivity|]. auto.
        * intros X. left. exact X.
      + inv_ret H2. destruct H2 as [-> ->]. split.
        * left. split; [exact W|]. cbn. intros x E. apply Some_inj in E. subst x. eapply hgood_more; [| |exact G'].
          -- intros (N & i0 & E & As). apply Some_inj in E. subst i0. split; [exact N|]. exists i. split; [left; reflexivity|exact As].
          -- intros X. left. exact X.
        * split; [constructor; [exact I|constructor]|]. split; [apply same_ends_refl|]. intros [F|[]]. discriminate.
    - assert (E : c1 = c0 /\ ev1 = []) by (destruct answer; inv_ret H2; exact H2). destruct E as [-> ->]. split.
      + left. split; [exact W|]. cbn. intros x E. apply Some_inj in E. subst x. eapply hgood_more; [| |exact G'].
        * intros (_ & i0 & E & _). discriminate.
        * intros X. left. exact X.
      + split; [constructor|]. split; [apply same_ends_refl|]. intros []. }
  destruct K as (K1 & K2 & K3 & K4). apply (after_handshake_ok P _ _ _ _ _ _ _ _ _ _ _ K1 Bq) in H3. destruct H3 as (L1 & L2 & L3 & L4 & _).
  split; [exact L1|]. split; [apply Forall_app; split; assumption|]. split.
  { destruct (same_ends_trans _ _ _ K3 L3) as (E1 & E2 & E3). repeat split; assumption. }
  intros F. apply L4. apply in_app_or in F. destruct F as [F|F]; [right; exact (K4 F)|left; exact F].
Qed.

(* --- one call on a context without streams *)
Definition asked_in (P : prims) (hist : list (top * list tevent)) : Prop :=
  exists before b answer pad ev after p c i,
    hist = (before ++ (TReceive (Some b) answer pad, ev) :: after)%list /\
    tpacket_create_from_buffer (Some b) = Val p /\ verified_by P p c /\ chain_truth P c = true /\ In (EvVerify i) ev /\ same_identities i c.
Lemma asked_in_more P hist x : asked_in P hist -> asked_in P (hist ++ [x]).
Proof.
  intros (before & b & an & pad & ev & after & p & c & i & -> & H). exists before, b, an, pad, ev, (after ++ [x])%list, p, c, i. split; [|exact H].
  rewrite <- app_assoc. reflexivity.
Qed.
Lemma authenticated_more P r hist x : peer_authenticated P r hist -> peer_authenticated P r (hist ++ [x]).
Proof.
  intros (before & b & an & pad & ev & after & p & c & -> & H1 & H2 & H3). exists before, b, an, pad, ev, (after ++ [x])%list, p, c.
  split; [rewrite <- app_assoc; reflexivity|]. split; [exact H1|]. split; [exact H2|]. destruct r; [exact H3|]. destruct H3 as (T & Hi & [A|(e & A)]); split; auto; split; auto.
  right. exists e. apply in_or_app. auto.
Qed.
Lemma asked_answered P hist ev : asked_in P hist -> peer_authenticated P None (hist ++ [(TAnswer true, ev)]).
Proof.
  intros (before & b & an & pad & ev1 & after & p & c & i & -> & H1 & H2 & H3 & H4 & H5). exists before, b, an, pad, ev1, (after ++ [(TAnswer true, ev)])%list, p, c.
  split; [rewrite <- app_assoc; reflexivity|]. split; [exact H1|]. split; [exact H2|]. split; [exact H3|]. split; [eauto|]. right. exists ev. apply in_or_app. right. left. reflexivity.
Qed.
Definition hist_phase (P : prims) (hist : list (top * list tevent)) (c : transport) : Prop :=
  phase P (tc_remote c) (tc_remote c = None /\ asked_in P hist) (peer_authenticated P (tc_remote c) hist) c.
Lemma hist_phase_ends P hist c c' : same_ends c c' -> phase P (tc_remote c) (tc_remote c = None /\ asked_in P hist) (peer_authenticated P (tc_remote c) hist) c' -> hist_phase P hist c'.
Proof. intros (_ & E & _) H. unfold hist_phase. rewrite E. exact H. Qed.
Lemma hist_phase_more P hist x c : hist_phase P hist c -> hist_phase P (hist ++ [x]) c.
Proof. apply phase_more; [intros [A B]; split; [exact A|apply asked_in_more, B]|apply authenticated_more]. Qed.

Lemma error_step P hist c e x c' ev : hist_phase P hist c -> set_error e c = (c', ev) ->
  hist_phase P (hist ++ [x]) c' /\ Forall hevent ev /\ same_ends c c' /\ (In (EvState T_ACTIVE) ev -> fresh P c') /\ (forall b, ~ In (EvTx b) ev).
Proof.
  intros Ph S. apply set_error_eq in S. destruct S as [-> E]. split; [apply hist_phase_more; eapply hist_phase_ends; [apply error_ends|]; apply phase_error, Ph|].
  split; [destruct E as [-> | ->]; repeat constructor|]. split; [apply error_ends|].
  split; [intros F; destruct E as [-> | ->]; [destruct F|destruct F as [F|[]]; discriminate]|]. intros b F. destruct E as [-> | ->]; [destruct F|destruct F as [F|[]]; discriminate].
Qed.
Lemma waiting_step P hist c o s c' ev s' : sha_ok P -> copyable (tc_remote c) -> waiting c -> hist_phase P hist c ->
  transport_step P c o s = (Val (c', ev), s') ->
  hist_phase P (hist ++ [(o, ev)]) c' /\ Forall hevent ev /\ same_ends c c' /\ (In (EvState T_ACTIVE) ev -> fresh P c') /\
  (forall d b, o = TSend d -> ~ In (EvTx b) ev).
Proof.
  intros SO Cp W Ph H.
  assert (Err : forall e x y, mret (set_error e c) x = (Val (c', ev), y) ->
    hist_phase P (hist ++ [(o, ev)]) c' /\ Forall hevent ev /\ same_ends c c' /\ (In (EvState T_ACTIVE) ev -> fresh P c') /\ (forall d b, o = TSend d -> ~ In (EvTx b) ev)).
  { intros e x y E. apply mret_Val in E. destruct E as [E _]. symmetry in E. apply (error_step P hist c e (o, ev)) in E; [|exact Ph].
    destruct E as (E1 & E2 & E3 & E4 & E5). split; [exact E1|]. split; [exact E2|]. split; [exact E3|]. split; [exact E4|]. intros d b _. apply E5. }
  assert (Hg : forall h, tc_handshake c = Some h -> hgood (tc_remote c) (tc_remote c = None /\ asked_in P hist) (peer_authenticated P (tc_remote c) hist) h).
  { destruct Ph as [[_ G]|[(F & _) _]]; [exact G|]. intros h E. congruence. }
  destruct o as [|d|b answer pad|v]; cbn [transport_step] in H.
  - (* start *)
    assert (ErrN : forall e x y, mret (set_error e (set_thandshake None c)) x = (Val (c', ev), y) ->
      hist_phase P (hist ++ [(TStart, ev)]) c' /\ Forall hevent ev /\ same_ends c c' /\ (In (EvState T_ACTIVE) ev -> fresh P c') /\ (forall d b, TStart = TSend d -> ~ In (EvTx b) ev)).
    { intros e x y E. apply mret_Val in E. destruct E as [E _]. symmetry in E. apply (error_step P hist (set_thandshake None c) e (TStart, ev)) in E.
      - destruct E as (E1 & E2 & E3 & E4 & E5). split; [exact E1|]. split; [exact E2|]. split; [exact E3|]. split; [exact E4|]. intros d b X. discriminate.
      - left. split; [exact W|]. discriminate. }
    unfold transport_start in H. destruct (tc_status c); try exact (Err _ _ _ H). destruct (create_handshake c) as [h|] eqn:Ch; [|exact (ErrN _ _ _ H)].
    apply mbind_Val in H. destruct H as ([h' pkt] & s1 & H1 & H). destruct pkt as [p|]; [|exact (ErrN _ _ _ H)].
    apply start_body in H1. destruct H1 as ((vv & ff & B) & St & Rm). rewrite St in H. destruct (tpacket_serialize p) as [b|] eqn:Sp; [|exact (ErrN _ _ _ H)].
    destruct (update_status T_INITIAL_HANDSHAKE (set_thandshake (Some h') c)) as [c1 ev1] eqn:U. apply update_eq in U. destruct U as [-> U]. inv_ret H. destruct H as [-> ->].
    pose proof (create_handshake_good c h False False Cp Ch) as [_ G]. split.
    { left. split; [destruct W as (W1 & W2 & W3); repeat split; try assumption; discriminate|]. cbn [tc_handshake set_tstatus set_thandshake]. intros x E. apply Some_inj in E. subst x.
      split; [intros X; congruence|]. rewrite St. cbn [tc_remote set_tstatus set_thandshake]. rewrite Rm.
      unfold create_handshake, handshake_create in Ch. destruct (chain_copy (Some (tc_local c))); [|discriminate]. destruct (tc_evo c =? 0); [discriminate|]. apply Some_inj in Ch. subst h. exact G. }
    split; [apply Forall_app; split; [destruct U as [-> | ->]; repeat constructor|constructor; [exists p, vv, ff; auto|constructor]]|].
    split; [repeat split|]. split; [|discriminate]. intros F. apply in_app_or in F. destruct F as [F|[F|[]]]; [|discriminate]. destruct U as [-> | ->]; [destruct F|destruct F as [F|[]]; discriminate].
  - (* send *)
    unfold process_tx_buffer in H. destruct W as (W1 & W2 & W3). destruct d as [d|]; [|exact (Err _ _ _ H)]. destruct (tc_status c) eqn:St; try exact (Err _ _ _ H). congruence.
  - (* receive *)
    unfold process_rx_buffer in H. destruct b as [b|]; [|exact (Err _ _ _ H)].
    assert (Quiet : forall x y, mret (c, @nil tevent) x = (Val (c', ev), y) ->
      hist_phase P (hist ++ [(TReceive (Some b) answer pad, ev)]) c' /\ Forall hevent ev /\ same_ends c c' /\ (In (EvState T_ACTIVE) ev -> fresh P c') /\ (forall d b0, TReceive (Some b) answer pad = TSend d -> ~ In (EvTx b0) ev)).
    { intros x y E. inv_ret E. destruct E as [-> ->]. split; [apply hist_phase_more, Ph|]. split; [constructor|]. split; [apply same_ends_refl|]. split; [intros []|discriminate]. }
    assert (Go : tc_status c <> T_ERROR -> mbind (mres (rtry (tpacket_create_from_buffer (Some b)))) (fun packet => match packet with
       | None => mret (set_error E_INVALID_RXDATA c)
       | Some pkt => if can_process_handshake c && (body_type (tm_body (tp_meta pkt)) =? 0) then process_handshake_packet P c pkt answer
          else match tc_rx c with
               | Some rx => let '(r, rx') := decode_pkt P rx pkt pad in let c := set_streams (tc_tx c) (Some rx') c in
                   mbind (mres (rtry r)) (fun d => match d with None => mret (set_error E_PACKET_DECODE_FAILED c) | Some data => mret (c, [EvRx data]) end)
               | None => mret (set_error E_BAD_RX_STATE c) end end) s = (Val (c', ev), s') ->
       hist_phase P (hist ++ [(TReceive (Some b) answer pad, ev)]) c' /\ Forall hevent ev /\ same_ends c c' /\ (In (EvState T_ACTIVE) ev -> fresh P c') /\ (forall d b0, TReceive (Some b) answer pad = TSend d -> ~ In (EvTx b0) ev)).
    { clear H. intros NE H. apply mbind_Val in H. destruct H as (pk & s1 & H1 & H). apply mres_Val in H1. destruct H1 as [H1 ->].
      destruct pk as [pkt|]; [|exact (Err _ _ _ H)]. unfold rtry in H1. destruct (tpacket_create_from_buffer (Some b)) as [pkt'| |] eqn:Pb; try discriminate. apply Val_inj in H1. apply Some_inj in H1. subst pkt'.
      destruct (can_process_handshake c && _) eqn:Can.
      2:{ destruct W as (_ & W2 & _). rewrite W2 in H. exact (Err _ _ _ H). }
      apply andb_prop in Can. destruct Can as [Can _]. apply (process_handshake_ok P _ _ c pkt answer _ _ _ _ SO Cp Ph) in H.
      2:{ intros E. unfold can_process_handshake in Can. rewrite E in Can. destruct (tc_status c); try discriminate. reflexivity. }
      destruct H as (H1 & H2 & H3 & H4). split; [|split; [exact H2|split; [exact H3|split; [exact H4|discriminate]]]].
      eapply hist_phase_ends; [exact H3|]. eapply phase_more; [| |exact H1].
      - intros (N & i & Hi & d & V & T & S). split; [exact N|]. exists hist, b, answer, pad, ev, [], pkt, d, i. auto 10.
      - intros [(r & d & E & V & S)|(N & i & Hi & (d & V & T & S) & ->)]; exists hist, b.
        + exists answer, pad, ev, [], pkt, d. rewrite E. auto 10.
        + exists (Some true), pad, ev, [], pkt, d. rewrite N. split; [reflexivity|]. split; [exact Pb|]. split; [exact V|]. split; [exact T|]. split; [eauto|left; reflexivity]. }
    destruct (tc_status c) eqn:St; try (apply Go; [discriminate|exact H]). exact (Quiet _ _ H).
  - (* answer *)
    apply (identity_complete_ok P (tc_remote c) _ _ (peer_authenticated P (tc_remote c) (hist ++ [(TAnswer v, ev)])) c v _ _ _ _ Ph) in H.
    + destruct H as (H1 & H2 & H3 & H4 & _). split; [eapply hist_phase_ends; [exact H3|]; eapply phase_more; [| |exact H1]; [intros []|auto]|].
      split; [exact H2|]. split; [exact H3|]. split; [intros F; apply H4; left; exact F|discriminate].
    + intros [N A] ->. rewrite N. apply asked_answered, A.
    + apply authenticated_more.
Qed.

(* --- one call on a context with streams *)
Lemma tstatus_active c : tstatus_eqb (tc_status c) T_NONE = false <-> tc_status c <> T_NONE.
Proof. destruct (tc_status c); cbn; split; congruence. Qed.
Definition only_error (ev : list tevent) : Prop := ev = [] \/ ev = [EvState T_ERROR].
Lemma running_step P c o s c' ev s' : running c -> transport_step P c o s = (Val (c', ev), s') ->
  running c' /\ same_ends c c' /\
  (tc_tx c' = tc_tx c /\ tc_rx c' = tc_rx c /\ only_error ev \/
   (exists d tx, o = TSend (Some d) /\ tc_status c = T_ACTIVE /\ tc_tx c = Some tx /\ tc_rx c' = tc_rx c /\ tc_tx c' = Some (snd (encode_pkt P tx d)) /\
      ((exists p b, fst (encode_pkt P tx d) = Val p /\ tpacket_serialize p = Some b /\ ev = [EvTx b]) \/ only_error ev)) \/
   (exists b answer pad pkt rx, o = TReceive (Some b) answer pad /\ tc_status c = T_ACTIVE /\ tpacket_create_from_buffer (Some b) = Val pkt /\
      tc_rx c = Some rx /\ tc_tx c' = tc_tx c /\ tc_rx c' = Some (snd (decode_pkt P rx pkt pad)) /\
      ((exists d, fst (decode_pkt P rx pkt pad) = Val d /\ ev = [EvRx d]) \/ only_error ev))).
Proof.
  intros (R1 & R2 & (tx & R3) & (rx & R4)) H.
  assert (Rerr : forall e, running (errored e c)) by (intros e; repeat split; [exact R1|right; reflexivity|exists tx; exact R3|exists rx; exact R4]).
  assert (Err : forall e x y, mret (set_error e c) x = (Val (c', ev), y) -> running c' /\ same_ends c c' /\ tc_tx c' = tc_tx c /\ tc_rx c' = tc_rx c /\ only_error ev).
  { intros e x y E. apply mret_Val in E. destruct E as [E _]. symmetry in E. apply set_error_eq in E. destruct E as [-> E]. split; [apply Rerr|]. repeat split. exact E. }
  destruct o as [|d|b answer pad|v]; cbn [transport_step] in H.
  - unfold transport_start in H. destruct (tc_status c); [destruct R2; discriminate| | |]; destruct (Err _ _ _ H) as (A & B & C); (split; [exact A|split; [exact B|left; exact C]]).
  - unfold process_tx_buffer in H. destruct d as [d|]; [|destruct (Err _ _ _ H) as (A & B & C); split; [exact A|split; [exact B|left; exact C]]].
    destruct (tc_status c) eqn:St; try (destruct (Err _ _ _ H) as (A & B & C); split; [exact A|split; [exact B|left; exact C]]). rewrite R3 in H.
    destruct (encode_pkt P tx d) as [r tx'] eqn:En. cbv zeta in H. apply mbind_Val in H. destruct H as (pk & s1 & H1 & H). apply mres_Val in H1. destruct H1 as [H1 ->].
    assert (Rn : running (set_streams (Some tx') (tc_rx c) c)) by (repeat split; [exact R1|left; exact St|eexists; reflexivity|exists rx; exact R4]).
    assert (Er : forall e x y, mret (set_error e (set_streams (Some tx') (tc_rx c) c)) x = (Val (c', ev), y) -> running c' /\ same_ends c c' /\ tc_tx c' = Some tx' /\ tc_rx c' = tc_rx c /\ only_error ev).
    { intros e x y E. apply mret_Val in E. destruct E as [E _]. symmetry in E. apply set_error_eq in E. destruct E as [-> E]. split; [|repeat split; exact E].
      repeat split; [exact R1|right; reflexivity|eexists; reflexivity|exists rx; exact R4]. }
    destruct pk as [p|].
    + destruct (tpacket_serialize p) as [b|] eqn:Sb.
      * inv_ret H. destruct H as [-> ->]. split; [exact Rn|]. split; [repeat split|]. right. left. exists d, tx. rewrite En. repeat (split; [first [reflexivity|assumption]|]).
        left. exists p, b. unfold rtry in H1. destruct r; try discriminate. apply Val_inj in H1. apply Some_inj in H1. subst. auto.
      * destruct (Er _ _ _ H) as (A & B & C & D & E). split; [exact A|]. split; [exact B|]. right. left. exists d, tx. rewrite En. repeat (split; [first [reflexivity|assumption]|]). right. exact E.
    + destruct (Er _ _ _ H) as (A & B & C & D & E). split; [exact A|]. split; [exact B|]. right. left. exists d, tx. rewrite En. repeat (split; [first [reflexivity|assumption]|]). right. exact E.
  - unfold process_rx_buffer in H. destruct b as [b|]; [|destruct (Err _ _ _ H) as (A & B & C); split; [exact A|split; [exact B|left; exact C]]].
    destruct (tc_status c) eqn:St; try (destruct R2; discriminate).
    2:{ inv_ret H. destruct H as [-> ->]. split; [repeat split; [exact R1|right; exact St|exists tx; exact R3|exists rx; exact R4]|]. split; [apply same_ends_refl|]. left. repeat split. left. reflexivity. }
    apply mbind_Val in H. destruct H as (pk & s1 & H1 & H). apply mres_Val in H1. destruct H1 as [H1 ->].
    destruct pk as [pkt|]; [|destruct (Err _ _ _ H) as (A & B & C); split; [exact A|split; [exact B|left; exact C]]].
    unfold rtry in H1. destruct (tpacket_create_from_buffer (Some b)) as [pkt'| |] eqn:Pb; try discriminate. apply Val_inj in H1. apply Some_inj in H1. subst pkt'.
    unfold can_process_handshake in H. rewrite R1, St in H. cbn [tstatus_eqb andb] in H. rewrite R4 in H.
    destruct (decode_pkt P rx pkt pad) as [r rx'] eqn:De. cbv zeta in H. apply mbind_Val in H. destruct H as (pk & s1 & H1 & H). apply mres_Val in H1. destruct H1 as [H1 ->].
    destruct pk as [d|].
    + inv_ret H. destruct H as [-> ->]. split; [repeat split; [exact R1|left; exact St|exists tx; exact R3|eexists; reflexivity]|]. split; [repeat split|].
      right. right. exists b, answer, pad, pkt, rx. rewrite De. repeat (split; [first [reflexivity|assumption]|]). left. exists d. unfold rtry in H1. destruct r; try discriminate. apply Val_inj in H1. apply Some_inj in H1. subst. auto.
    + apply mret_Val in H. destruct H as [H _]. symmetry in H. apply set_error_eq in H. destruct H as [-> E].
      split; [repeat split; [exact R1|right; reflexivity|exists tx; exact R3|eexists; reflexivity]|]. split; [repeat split|].
      right. right. exists b, answer, pad, pkt, rx. rewrite De. repeat (split; [first [reflexivity|assumption]|]). right. exact E.
  - unfold identity_complete in H. rewrite R1 in H. unfold after_handshake in H. rewrite R1 in H. apply mbind_Val in H. destruct H as ([c1 ev1] & s1 & H1 & H).
    inv_ret H1. destruct H1 as [-> ->]. rewrite R1 in H. cbn [handshake_status] in H. inv_ret H. destruct H as [-> ->].
    split; [repeat split; [exact R1|exact R2|exists tx; exact R3|exists rx; exact R4]|]. split; [apply same_ends_refl|]. left. repeat split. left. reflexivity.
Qed.

(* --- histories of a context *)
Definition tinv (P : prims) (hist : list (top * list tevent)) (c : transport) : Prop :=
  waiting c /\ hist_phase P hist c \/ running c /\ peer_authenticated P (tc_remote c) hist.
Lemma phase_tinv P hist c : hist_phase P hist c -> tinv P hist c.
Proof. intros [[W G]|[F q]]; [left; split; [exact W|left; split; assumption]|right; split; [eapply fresh_running; exact F|exact q]]. Qed.
Lemma fst_Val3 {A} (x : res A * nat) a : fst x = Val a -> exists s, x = (Val a, s).
Proof. destruct x as [r s]. cbn [fst]. intros ->. eauto. Qed.
Lemma tinv_reach P l pinned evo c0 hist c : sha_ok P -> copyable pinned -> transport_create l pinned evo = Some c0 -> reach P c0 hist c ->
  tc_remote c = pinned /\ tinv P hist c.
Proof.
  intros SO Cp C R. induction R as [|hist c o s c' ev R IH S].
  { unfold transport_create in C. destruct l as [l|]; [|discriminate]. destruct (_ <? _); [discriminate|]. apply Some_inj in C. subst c0. cbn [tc_remote]. split; [reflexivity|].
    left. assert (W : waiting {| tc_local := l; tc_remote := pinned; tc_tx := None; tc_rx := None; tc_handshake := None; tc_status := T_NONE; tc_evo := if evo =? 0 then PACKET_PER_EVO_DEFAULT else evo; tc_err := E_NONE |}) by (repeat split; discriminate).
    split; [exact W|]. left. split; [exact W|]. discriminate. }
  destruct IH as [E IH]. apply fst_Val3 in S. destruct S as [s' S]. destruct IH as [[W Ph]|[Rn q]].
  - destruct (waiting_step P hist c o s c' ev s' SO ltac:(rewrite E; exact Cp) W Ph S) as (H1 & _ & (_ & H2 & _) & _). split; [congruence|apply phase_tinv, H1].
  - destruct (running_step P c o s c' ev s' Rn S) as (H1 & (_ & H2 & _) & _). split; [congruence|]. right. split; [exact H1|]. rewrite H2. apply authenticated_more, q.
Qed.
Lemma active_authenticated P l pinned evo c0 hist c : sha_ok P -> copyable pinned -> transport_create l pinned evo = Some c0 -> reach P c0 hist c ->
  tc_status c = T_ACTIVE -> peer_authenticated P pinned hist.
Proof.
  intros SO Cp C R A. destruct (tinv_reach _ _ _ _ _ _ _ SO Cp C R) as [E [[(_ & _ & W) _]|[_ q]]]; [congruence|]. rewrite E in q. exact q.
Qed.
Lemma only_error_in ev e : only_error ev -> In e ev -> e = EvState T_ERROR.
Proof. intros [-> | ->] H; [destruct H|]. destruct H as [H|[]]. congruence. Qed.
Lemma data_only_active P l pinned evo c0 hist c o s c' ev : sha_ok P -> copyable pinned -> transport_create l pinned evo = Some c0 -> reach P c0 hist c ->
  fst (transport_step P c o s) = Val (c', ev) ->
  (forall d, In (EvRx d) ev -> tc_status c = T_ACTIVE /\ exists b answer pad, o = TReceive (Some b) answer pad) /\
  (forall b, In (EvTx b) ev -> (exists d, o = TSend (Some d)) /\ tc_status c = T_ACTIVE \/ (forall d, o <> TSend d) /\ tc_status c <> T_ACTIVE /\ handshake_bytes b).
Proof.
  intros SO Cp C R S. destruct (tinv_reach _ _ _ _ _ _ _ SO Cp C R) as [E IH]. apply fst_Val3 in S. destruct S as [s' S]. destruct IH as [[W Ph]|[Rn q]].
  - destruct (waiting_step P hist c o s c' ev s' SO ltac:(rewrite E; exact Cp) W Ph S) as (_ & H2 & _ & _ & H5). rewrite Forall_forall in H2. split.
    + intros d Hd. destruct (H2 _ Hd).
    + intros b Hb. right. split; [intros d ->; exact (H5 d b eq_refl Hb)|]. split; [apply W|]. exact (H2 _ Hb).
  - destruct (running_step P c o s c' ev s' Rn S) as (_ & _ & H). 
    destruct H as [(_ & _ & H)|[(d & tx & -> & St & _ & _ & _ & H)|(b & an & pad & pkt & rx & -> & St & _ & _ & _ & _ & H)]].
    + split; intros x Hx; apply (only_error_in _ _ H) in Hx; discriminate.
    + split; intros x Hx; destruct H as [(p & b & _ & _ & ->)|H]; try (apply (only_error_in _ _ H) in Hx; discriminate); destruct Hx as [Hx|[]]; [discriminate|]. left. eauto.
    + split; intros x Hx; destruct H as [(d & _ & ->)|H]; try (apply (only_error_in _ _ H) in Hx; discriminate); destruct Hx as [Hx|[]]; [|discriminate]. eauto 10.
Qed.
Lemma fresh_when_active P l pinned evo c0 hist c o s c' ev : sha_ok P -> copyable pinned -> transport_create l pinned evo = Some c0 -> reach P c0 hist c ->
  fst (transport_step P c o s) = Val (c', ev) -> In (EvState T_ACTIVE) ev -> tc_handshake c' = None /\ exists ks kr, good_stream_key ks /\ good_stream_key kr /\ fresh_streams P c' ks kr.
Proof.
  intros SO Cp C R S A. destruct (tinv_reach _ _ _ _ _ _ _ SO Cp C R) as [E IH]. apply fst_Val3 in S. destruct S as [s' S]. destruct IH as [[W Ph]|[Rn q]].
  - destruct (waiting_step P hist c o s c' ev s' SO ltac:(rewrite E; exact Cp) W Ph S) as (_ & _ & _ & H4 & _). destruct (H4 A) as (F1 & _ & F2). auto.
  - destruct (running_step P c o s c' ev s' Rn S) as (_ & _ & H). 
    destruct H as [(_ & _ & H)|[(d & tx & -> & St & _ & _ & _ & H)|(b & an & pad & pkt & rx & -> & St & _ & _ & _ & _ & H)]].
    + apply (only_error_in _ _ H) in A. discriminate.
    + destruct H as [(p & b & _ & _ & ->)|H]; [destruct A as [A|[]]; discriminate|]. apply (only_error_in _ _ H) in A. discriminate.
    + destruct H as [(p & _ & ->)|H]; [destruct A as [A|[]]; discriminate|]. apply (only_error_in _ _ H) in A. discriminate.
Qed.

(* --- errors *)
Lemma set_error_quiet e c c' ev : tc_status c = T_ERROR -> set_error e c = (c', ev) -> ev = [] /\ tc_status c' = T_ERROR /\ tc_handshake c' = tc_handshake c.
Proof.
  unfold set_error, update_status. cbn [tc_status set_terr]. intros E. rewrite E. cbn [tstatus_eqb]. intros H. apply pair_equal_spec in H. destruct H as [<- <-]. split; [reflexivity|]. split; [exact E|reflexivity].
Qed.
Lemma error_quiet P c o s c' ev : tc_status c = T_ERROR -> fst (transport_step P c o s) = Val (c', ev) ->
  o <> TAnswer true \/ handshake_status (tc_handshake c) <> H_PENDING_VERIFICATION ->
  tc_status c' = T_ERROR /\ ev = [] /\
  (handshake_status (tc_handshake c) <> H_PENDING_VERIFICATION -> handshake_status (tc_handshake c') <> H_PENDING_VERIFICATION).
Proof.
  intros St S NA. apply fst_Val3 in S. destruct S as [s' S].
  assert (Err : forall e x y, mret (set_error e c) x = (Val (c', ev), y) -> tc_status c' = T_ERROR /\ ev = [] /\
    (handshake_status (tc_handshake c) <> H_PENDING_VERIFICATION -> handshake_status (tc_handshake c') <> H_PENDING_VERIFICATION)).
  { intros e x y E. apply mret_Val in E. destruct E as [E _]. symmetry in E. apply (set_error_quiet e c c' ev St) in E. destruct E as (-> & E2 & ->). auto. }
  destruct o as [|d|b answer pad|v]; cbn [transport_step] in S.
  - unfold transport_start in S. rewrite St in S. exact (Err _ _ _ S).
  - unfold process_tx_buffer in S. rewrite St in S. destruct d; exact (Err _ _ _ S).
  - unfold process_rx_buffer in S. rewrite St in S. destruct b; [|exact (Err _ _ _ S)]. inv_ret S. destruct S as [-> ->]. auto.
  - unfold identity_complete in S. destruct (tc_handshake c) as [h|] eqn:Eh.
    + cbn [handshake_status] in NA.
      assert (V : handshake_verify_identity h v = (set_root None (set_hstatus H_FAILED h), None)).
      { unfold handshake_verify_identity. destruct v; [|reflexivity]. destruct NA as [NA|NA]; [congruence|]. destruct (hs_status h); try reflexivity. congruence. }
      rewrite V in S. unfold after_handshake in S. cbn [tc_handshake set_thandshake hs_status set_root set_hstatus] in S. apply mbind_Val in S. destruct S as ([c1 ev1] & s1 & H1 & S).
      inv_ret H1. destruct H1 as [-> ->]. cbn [handshake_status tc_handshake set_thandshake hs_status set_root set_hstatus] in S.
      match type of S with (let '(_, _) := set_error ?e ?k in _) _ = _ => destruct (set_error e k) as [c2 ev2] eqn:Se; apply (set_error_quiet e k c2 ev2 St) in Se end.
      destruct Se as (-> & E2 & E3). inv_ret S. destruct S as [-> ->]. split; [exact E2|]. split; [reflexivity|]. intros _. rewrite E3. cbn. discriminate.
    + unfold after_handshake in S. rewrite Eh in S. apply mbind_Val in S. destruct S as ([c1 ev1] & s1 & H1 & S). inv_ret H1. destruct H1 as [-> ->]. rewrite Eh in S. cbn [handshake_status] in S.
      inv_ret S. destruct S as [-> ->]. rewrite Eh. auto.
Qed.
Lemma error_absorbs P c hist c' : tc_status c = T_ERROR -> reach P c hist c' ->
  (forall ev, ~ In (TAnswer true, ev) hist) \/ handshake_status (tc_handshake c) <> H_PENDING_VERIFICATION ->
  tc_status c' = T_ERROR /\ events hist = [] /\ (handshake_status (tc_handshake c) <> H_PENDING_VERIFICATION -> handshake_status (tc_handshake c') <> H_PENDING_VERIFICATION).
Proof.
  intros St R NA. induction R as [|hist c1 o s c' ev R IH S]; [auto|].
  assert (NA1 : (forall ev, ~ In (TAnswer true, ev) hist) \/ handshake_status (tc_handshake c) <> H_PENDING_VERIFICATION).
  { destruct NA as [NA|NA]; [left|right; exact NA]. intros e He. apply (NA e). apply in_or_app. left. exact He. }
  destruct (IH NA1) as (I1 & I2 & I3). destruct (error_quiet P c1 o s c' ev I1 S) as (J1 & -> & J3).
  - destruct NA as [NA|NA]; [left|right; auto]. intros ->. apply (NA ev). apply in_or_app. right. left. reflexivity.
  - split; [exact J1|]. split; [|auto]. unfold events in *. rewrite flat_map_app, I2. reflexivity.
Qed.
(* a context that was given the peer's identity never waits for an answer *)
Lemma pinned_not_pending P l r evo c0 hist c : sha_ok P -> copyable (Some r) -> transport_create l (Some r) evo = Some c0 -> reach P c0 hist c ->
  handshake_status (tc_handshake c) <> H_PENDING_VERIFICATION.
Proof.
  intros SO Cp C R. destruct (tinv_reach _ _ _ _ _ _ _ SO Cp C R) as [E [[W Ph]|[(N & _) _]]]; [|rewrite N; discriminate].
  destruct Ph as [[_ G]|[(N & _) _]]; [|rewrite N; discriminate]. destruct (tc_handshake c) as [h|]; [|discriminate]. cbn [handshake_status]. intros St.
  destruct (G h eq_refl) as [_ X]. rewrite St, E in X. destruct X as [[X _] _]. discriminate.
Qed.

(* --- messages *)
Definition same_keys (P : prims) (k : stream_key) (ks : option stream_ctx) (d : direction) (last : N) : Prop :=
  exists x, ks = Some x /\ inv P k x /\ sc_dir x = d /\ sc_last x = last.
Record smsg := { sm_seq : N; sm_wire : bytes; sm_data : bytes }.
Definition msg_ok (P : prims) (k : stream_key) (m : smsg) : Prop :=
  forall aad r, sealed (sm_wire m) aad r -> aad = meta_wire (meta_data (sm_seq m) MAC_AUTH_CIPHER) /\ sm_seq m < 2 ^ 64 /\
    forall x, aes256_decrypt P (Some r) (Some aad) (Some (packet_key P k (sm_seq m))) true = Val x -> x = sm_data m.
Lemma serialized_cons r b : cipher_result_serialize (Some r) = Some b -> b <> [].
Proof.
  unfold cipher_result_serialize. destruct (negb _); [discriminate|]. cbv zeta. destruct (negb _); intros H; apply concat_multi_Some in H; destruct H as [-> _]; discriminate.
Qed.
Lemma serialize_gcm iv text tag : cipher_result_serialize (Some (Build_cipher_result AES256_GCM iv text tag)) = match tag with None => None | Some t => buffer_concat_multi [Some [x00]; Some iv; Some t; text] end.
Proof. destruct tag; reflexivity. Qed.
Lemma concat_4 a b c d : concat (map obytes [a; b; c; d]) = obytes a ++ obytes b ++ obytes c ++ obytes d.
Proof. cbn [map concat]. rewrite app_nil_r. reflexivity. Qed.
Lemma gcm_wire r0 b : cr_cipher r0 = AES256_GCM -> cipher_result_serialize (Some r0) = Some b -> b = result_wire r0.
Proof.
  destruct r0 as [c iv text tag]. cbn [cr_cipher]. intros -> Hs. rewrite serialize_gcm in Hs. destruct tag as [t|]; [|discriminate Hs]. apply concat_multi_Some in Hs. destruct Hs as [Hs _]. rewrite concat_4 in Hs. exact Hs.
Qed.
Lemma empty_not_opened P r0 r b aad key x : cr_cipher r0 = AES256_GCM -> cr_text r0 = Some [] -> length (cr_iv r0) = 12%nat -> length (bytes_of (cr_tag r0)) = 16%nat ->
  cipher_result_serialize (Some r0) = Some b -> cipher_result_from_buffer (Some b) = Val r -> aes256_decrypt P (Some r) aad key true <> Val x.
Proof.
  intros Ec T1 Li0 Lt0 Hs Er D. apply gcm_wire in Hs; [|exact Ec]. destruct (result_parse_inv _ _ Er) as ((Gr & NE) & Eb & _). apply Some_inj in Eb. rewrite Hs in Eb. unfold result_wire in Eb. rewrite Ec, T1 in Eb.
  destruct (cr_cipher r) eqn:Cr; [|discriminate]. destruct Gr as (Li & t & Et & Lt). rewrite Et in Eb. cbn [bytes_of] in Eb.
  apply (f_equal (@length byte)) in Eb. cbn [length] in Eb. rewrite !app_length in Eb. cbn [length] in Eb.
  assert (TN : cr_text r = None).
  { destruct (cr_text r) as [[|y tx0]|]; [congruence| |reflexivity]. cbn [bytes_of length] in Eb. lia. }
  unfold aes256_decrypt in D. rewrite TN in D. destruct key; discriminate.
Qed.
Lemma wadd64_lt a b : wadd64 a b < 2 ^ 64.
Proof. unfold wadd64. change (2 ^ 64) with two64. apply N.mod_lt. discriminate. Qed.
Lemma encode_pkt_shape P k tx d p tx' : hmac_ok P -> inv P k tx -> encode_pkt P tx d = (Val p, tx') ->
  sc_last tx < wadd64 (sc_last tx) 1 /\ exists r0 v s1 ser, let m := meta_data (wadd64 (sc_last tx) 1) MAC_AUTH_CIPHER in
    aes256_encrypt P (Some d) (Some (meta_wire m)) (Some (packet_key P k (wadd64 (sc_last tx) 1))) (Some v) 0%nat = (Val r0, s1) /\
    cipher_result_serialize (Some r0) = Some ser /\ p = {| tp_network := None; tp_body := ser; tp_mac := None; tp_meta := m |}.
Proof.
  intros HO I. unfold encode_pkt. cbv zeta.
  assert (Gm : good_meta (meta_data (wadd64 (sc_last tx) 1) MAC_AUTH_CIPHER)) by (split; [reflexivity|exact (wadd64_lt _ _)]).
  rewrite (meta_serialize_ok _ Gm). destruct (stream_ctx_encode P tx (Some d) _ _) as [r tx1] eqn:En. intros H. apply pair_equal_spec in H. destruct H as [H ->].
  apply rbind_Val in H. destruct H as (r0 & -> & H). apply rbind_Val in H. destruct H as (ser & Hs & H). apply lift_Val' in Hs. apply lift_Val' in H.
  pose proof (encode_cases P k tx (Some d) (Some (meta_wire (meta_data (wadd64 (sc_last tx) 1) MAC_AUTH_CIPHER))) (wadd64 (sc_last tx) 1) HO I) as [Q|(pt & g & Ed & _ & _ & L & k' & _ & Gk & _ & _ & PK & Q)]; rewrite En in Q; [discriminate|].
  apply Some_inj in Ed. subst pt. split; [exact L|]. apply pair_equal_spec in Q. destruct Q as [Q _]. symmetry in Q. apply fst_Val3 in Q. destruct Q as [s1 Q].
  unfold tpacket_create in H. apply Some_inj in H. eexists r0, _, s1, ser. split; [exact Q|]. split; [exact Hs|]. symmetry. exact H.
Qed.
Lemma result_same r0 r ser : good_result r0 -> cipher_result_serialize (Some r0) = Some ser -> cipher_result_from_buffer (Some ser) = Val r -> r = r0.
Proof.
  intros Gr Hs Er. destruct (result_parse_inv _ _ Er) as (Go & Eo & Lo). apply Some_inj in Eo.
  assert (Es : ser = result_wire r0).
  { destruct (N.le_gt_cases (blen (result_wire r0)) library_limit) as [LL|LL].
    - rewrite (result_serialize_ok r0 Gr) in Hs; [congruence|]. split; [|exact LL]. rewrite result_wire_eq by exact Gr. rewrite blen_cons. lia.
    - rewrite (result_too_big r0 LL Gr) in Hs. discriminate. }
  rewrite Es in Er. rewrite (result_parse_ok r0 Gr) in Er; [congruence|]. rewrite <- Es, Eo. exact Lo.
Qed.
Lemma encode_pkt_ok P k tx d p tx' b : hmac_ok P -> ctr_ok P -> aead_ok P -> inv P k tx -> encode_pkt P tx d = (Val p, tx') -> tpacket_serialize p = Some b ->
  sc_last tx < wadd64 (sc_last tx) 1 /\ msg_ok P k {| sm_seq := wadd64 (sc_last tx) 1; sm_wire := b; sm_data := d |}.
Proof.
  intros HO CO AO I E S. destruct (encode_pkt_shape P k tx d p tx' HO I E) as (L & r0 & v & s1 & ser & Q & Hs & Ep). split; [exact L|]. clear E.
  pose proof (wadd64_lt (sc_last tx) 1) as Ln. set (n := wadd64 (sc_last tx) 1) in *. clearbody n.
  assert (Gm : good_meta (meta_data n MAC_AUTH_CIPHER)) by (split; [reflexivity|exact Ln]).
  assert (Gp : good_tpacket p) by (subst p; split; [exact Gm|]; split; [exact (serialized_cons _ _ Hs)|reflexivity]).
  apply packet_serialize_eq in S; [|apply Gp]. destruct S as [-> Lb].
  intros aad r (p' & Pp & Ea & Er). cbn [sm_wire sm_seq sm_data] in *. rewrite (packet_parse_ok p Gp (proj2 Lb)) in Pp. apply Val_inj in Pp. subst p'.
  cbn [tp_meta tp_body set_network] in Ea, Er. rewrite Ep in Ea, Er. cbn [tp_meta tp_body] in Ea, Er. split; [exact Ea|]. split; [exact Ln|]. intros x. rewrite Ea. destruct d as [|d0 d].
  - destruct (encrypt_Val P _ _ _ _ _ _ _ Q) as (_ & _ & _ & Liv & Ec & _ & _ & T). cbn [ck_cipher packet_key gcm_key iv_len] in Liv, Ec, T. destruct T as (T1 & T2 & T3).
    destruct (AO (ck_data (packet_key P k n)) (cr_iv r0) (obytes (Some (meta_wire (meta_data n MAC_AUTH_CIPHER)))) []) as (L1 & L2 & _). 
    intros D. exfalso. eapply (empty_not_opened P r0 r ser); [exact Ec| | | |exact Hs|exact Er|exact D].
    + rewrite T1. destruct (fst _); [reflexivity|discriminate].
    + unfold blen in Liv. lia.
    + rewrite T2. exact L2.
  - assert (ND : d0 :: d <> []) by discriminate. pose proof (encrypt_good P _ _ _ _ _ _ _ CO AO ND Q) as [Gr _].
    pose proof (result_same r0 r ser Gr Hs Er) as ->.
    rewrite (decrypt_encrypt P (d0 :: d) _ (packet_key P k n) _ _ r0 _ true CO AO ND (fun _ => eq_refl) Q). intros X. apply Val_inj in X. congruence.
Qed.
Lemma reach_running P c hist c' : running c -> reach P c hist c' -> running c'.
Proof.
  intros Rn R. induction R as [|hist c1 o s c' ev R IH S]; [exact Rn|]. apply fst_Val3 in S. destruct S as [s' S]. apply (running_step P c1 o s c' ev s' IH S).
Qed.
Lemma encode_pkt_inv P k tx d : hmac_ok P -> inv P k tx -> sc_dir tx = ENCODE ->
  inv P k (snd (encode_pkt P tx d)) /\ sc_dir (snd (encode_pkt P tx d)) = ENCODE /\ sc_last tx <= sc_last (snd (encode_pkt P tx d)) /\
  (forall p, fst (encode_pkt P tx d) = Val p -> sc_last (snd (encode_pkt P tx d)) = wadd64 (sc_last tx) 1).
Proof.
  intros HO I D. unfold encode_pkt. cbv zeta. destruct (tmeta_serialize _) as [aad|]; [|cbn [fst snd]; split; [exact I|]; split; [exact D|]; split; [lia|]; intros p X; discriminate X].
  destruct (encode_cases P k tx (Some d) (Some aad) (wadd64 (sc_last tx) 1) HO I) as [Q|(pt & g & Ed & _ & _ & L & k' & _ & Gk & Pk & Mk & PK & Q)]; rewrite Q; cbn [fst snd].
  - split; [exact I|]. split; [exact D|]. split; [lia|]. intros p X. discriminate X.
  - split; [apply inv_set; assumption|]. cbn [sc_dir sc_last]. split; [reflexivity|]. split; [lia|]. intros p _. reflexivity.
Qed.
Lemma sender_reach P k c hist c' : hmac_ok P -> ctr_ok P -> aead_ok P -> running c -> (exists tx, tc_tx c = Some tx /\ inv P k tx /\ sc_dir tx = ENCODE) -> reach P c hist c' ->
  exists tx l, tc_tx c' = Some tx /\ inv P k tx /\ sc_dir tx = ENCODE /\
    transmitted hist = map sm_wire l /\ sent_data hist = map sm_data l /\ Forall (msg_ok P k) l /\ Forall (fun m => sm_seq m <= sc_last tx) l /\
    StronglySorted (fun x y => sm_seq x < sm_seq y) l.
Proof.
  intros HO CO AO Rn (tx0 & T0 & I0 & D0) R. induction R as [|hist c1 o s c' ev R IH S].
  { exists tx0, []. split; [exact T0|]. split; [exact I0|]. split; [exact D0|]. split; [reflexivity|]. split; [reflexivity|]. repeat (split; [constructor|]). constructor. }
  destruct IH as (tx & l & T & I & D & A1 & A2 & A3 & A4 & A5). apply fst_Val3 in S. destruct S as [s' S].
  destruct (running_step P c1 o s c' ev s' (reach_running _ _ _ _ Rn R) S) as (_ & _ & H).
  assert (Add : transmitted (hist ++ [(o, ev)]) = (transmitted hist ++ flat_map is_tx ev)%list /\ sent_data (hist ++ [(o, ev)]) = (sent_data hist ++ accepted_data (o, ev))%list).
  { unfold transmitted, events, sent_data. rewrite !flat_map_app. cbn [flat_map snd]. rewrite ?app_nil_r. split; reflexivity. }
  destruct Add as [Ad1 Ad2].
  assert (Quiet : (forall b, ~ In (EvTx b) ev) -> transmitted (hist ++ [(o, ev)]) = map sm_wire l /\ sent_data (hist ++ [(o, ev)]) = map sm_data l).
  { intros NT. rewrite Ad1, Ad2, A1, A2.
    assert (E1 : flat_map is_tx ev = []).
    { clear - NT. induction ev as [|e ev IH]; [reflexivity|]. cbn [flat_map]. rewrite IH by (intros b Hb; apply (NT b); right; exact Hb).
      destruct e; try reflexivity. destruct (NT b). left. reflexivity. }
    assert (E2 : accepted_data (o, ev) = []).
    { unfold accepted_data. destruct o as [|[d|]| |]; try reflexivity. destruct ev as [|e [|? ?]]; try reflexivity; destruct e; try reflexivity. destruct (NT b). left. reflexivity. }
    rewrite E1, E2, !app_nil_r. split; reflexivity. }
  destruct H as [(E1 & _ & H)|[(d & txx & -> & St & E1 & _ & E2 & H)|(b & an & pad & pkt & rx & -> & St & _ & _ & E1 & _ & H)]].
  - destruct Quiet as [Q1 Q2]; [intros b Hb; apply (only_error_in _ _ H) in Hb; discriminate|]. exists tx, l. rewrite E1. repeat (split; [assumption|]). assumption.
  - rewrite T in E1. apply Some_inj in E1. subst txx. destruct (encode_pkt_inv P k tx d HO I D) as (J1 & J2 & J3 & J4). 
    destruct H as [(p & b & Ep & Eb & ->)|H].
    + exists (snd (encode_pkt P tx d)), (l ++ [{| sm_seq := wadd64 (sc_last tx) 1; sm_wire := b; sm_data := d |}])%list.
      destruct (encode_pkt P tx d) as [r tx'] eqn:En. cbn [fst snd] in *. subst r.
      destruct (encode_pkt_ok P k tx d p tx' b HO CO AO I En Eb) as [L M]. specialize (J4 p eq_refl).
      split; [exact E2|]. split; [exact J1|]. split; [exact J2|]. rewrite Ad1, Ad2, A1, A2, !map_app. cbn [flat_map is_tx app accepted_data map sm_wire sm_data].
      split; [reflexivity|]. split; [reflexivity|]. split; [apply Forall_app; split; [exact A3|constructor; [exact M|constructor]]|].
      split; [apply Forall_app; split; [|constructor; [cbn [sm_seq]; lia|constructor]]|].
      * eapply Forall_impl; [|exact A4]. cbv beta. intros a Ha. lia.
      * apply sorted_app; [exact A5|repeat constructor|]. intros x y Hx [<-|[]]. cbn [sm_seq]. rewrite Forall_forall in A4. specialize (A4 x Hx). lia.
    + destruct Quiet as [Q1 Q2]; [intros b Hb; apply (only_error_in _ _ H) in Hb; discriminate|]. exists (snd (encode_pkt P tx d)), l.
      split; [exact E2|]. split; [exact J1|]. split; [exact J2|]. repeat (split; [assumption|]). split; [|assumption]. eapply Forall_impl; [|exact A4]. cbv beta. intros a Ha. lia.
  - destruct Quiet as [Q1 Q2]; [intros x Hx; destruct H as [(d & _ & ->)|H]; [destruct Hx as [Hx|[]]; discriminate|apply (only_error_in _ _ H) in Hx; discriminate]|].
    exists tx, l. rewrite E1. repeat (split; [assumption|]). assumption.
Qed.

(* the receiver *)
Record dmsg := { dm_seq : N; dm_data : bytes }.
Definition dmsg_ok (P : prims) (k : stream_key) (hist : list (top * list tevent)) (m : dmsg) : Prop :=
  exists b answer pad ev p r, In (TReceive (Some b) answer pad, ev) hist /\ In (EvRx (dm_data m)) ev /\
    tpacket_create_from_buffer (Some b) = Val p /\ cipher_result_from_buffer (Some (tp_body p)) = Val r /\ dm_seq m = union_sequence pad (tm_body (tp_meta p)) /\
    aes256_decrypt P (Some r) (Some (meta_wire (tp_meta p))) (Some (packet_key P k (dm_seq m))) true = Val (dm_data m).
Lemma decode_pkt_ok P k rx pkt pad : hmac_ok P -> inv P k rx -> sc_dir rx = DECODE -> good_meta (tp_meta pkt) ->
  inv P k (snd (decode_pkt P rx pkt pad)) /\ sc_dir (snd (decode_pkt P rx pkt pad)) = DECODE /\ sc_last rx <= sc_last (snd (decode_pkt P rx pkt pad)) /\
  (forall d, fst (decode_pkt P rx pkt pad) = Val d -> 
     let n := union_sequence pad (tm_body (tp_meta pkt)) in sc_last rx < n /\ sc_last (snd (decode_pkt P rx pkt pad)) = n /\
     exists r, cipher_result_from_buffer (Some (tp_body pkt)) = Val r /\ aes256_decrypt P (Some r) (Some (meta_wire (tp_meta pkt))) (Some (packet_key P k n)) true = Val d).
Proof.
  intros HO I D G. unfold decode_pkt.
  assert (Same : forall x : res bytes, (forall d, x <> Val d) -> inv P k (snd (x, rx)) /\ sc_dir (snd (x, rx)) = DECODE /\ sc_last rx <= sc_last (snd (x, rx)) /\
    (forall d, fst (x, rx) = Val d -> 
     let n := union_sequence pad (tm_body (tp_meta pkt)) in sc_last rx < n /\ sc_last (snd (x, rx)) = n /\
     exists r, cipher_result_from_buffer (Some (tp_body pkt)) = Val r /\ aes256_decrypt P (Some r) (Some (meta_wire (tp_meta pkt))) (Some (packet_key P k n)) true = Val d)).
  { intros x NV. cbn [fst snd]. split; [exact I|]. split; [exact D|]. split; [lia|]. intros d E. destruct (NV d E). }
  destruct (cipher_result_from_buffer (Some (tp_body pkt))) as [r| |]; try (apply Same; discriminate). destruct (negb _); [apply Same; discriminate|].
  rewrite (meta_serialize_ok _ G). destruct (decode_cases P k rx (Some r) (Some (meta_wire (tp_meta pkt))) (union_sequence pad (tm_body (tp_meta pkt))) HO I) as [E|(r' & Er & _ & L & k' & _ & Gk & Pk & Mk & E)]; rewrite E.
  - apply Same. discriminate.
  - apply Some_inj in Er. subst r'. cbn [fst snd]. split; [apply inv_set; assumption|]. cbn [sc_dir sc_last]. split; [reflexivity|]. split; [lia|]. intros d Hd. cbv zeta. split; [exact L|]. split; [reflexivity|]. eauto.
Qed.
Lemma receiver_reach P k c hist c' : hmac_ok P -> running c -> (exists rx, tc_rx c = Some rx /\ inv P k rx /\ sc_dir rx = DECODE) -> reach P c hist c' ->
  exists rx l, tc_rx c' = Some rx /\ inv P k rx /\ sc_dir rx = DECODE /\ delivered hist = map dm_data l /\ Forall (dmsg_ok P k hist) l /\
    Forall (fun m => dm_seq m <= sc_last rx) l /\ StronglySorted (fun x y => dm_seq x < dm_seq y) l.
Proof.
  intros HO Rn (rx0 & T0 & I0 & D0) R. induction R as [|hist c1 o s c' ev R IH S].
  { exists rx0, []. split; [exact T0|]. split; [exact I0|]. split; [exact D0|]. split; [reflexivity|]. repeat (split; [constructor|]). constructor. }
  destruct IH as (rx & l & T & I & D & A1 & A3 & A4 & A5). apply fst_Val3 in S. destruct S as [s' S].
  destruct (running_step P c1 o s c' ev s' (reach_running _ _ _ _ Rn R) S) as (_ & _ & H).
  assert (Ad1 : delivered (hist ++ [(o, ev)]) = (delivered hist ++ flat_map is_rx ev)%list).
  { unfold delivered, events. rewrite !flat_map_app. cbn [flat_map snd]. rewrite ?app_nil_r. reflexivity. }
  assert (Quiet : (forall b, ~ In (EvRx b) ev) -> delivered (hist ++ [(o, ev)]) = map dm_data l).
  { intros NT. rewrite Ad1, A1. assert (E1 : flat_map is_rx ev = []); [|rewrite E1, app_nil_r; reflexivity].
    clear - NT. induction ev as [|e ev IH]; [reflexivity|]. cbn [flat_map]. rewrite IH by (intros b Hb; apply (NT b); right; exact Hb).
    destruct e; try reflexivity. destruct (NT b). left. reflexivity. }
  assert (A3' : Forall (dmsg_ok P k (hist ++ [(o, ev)])) l).
  { eapply Forall_impl; [|exact A3]. intros m (b & an & pad & e & p & r & Hin & Hr). exists b, an, pad, e, p, r. split; [apply in_or_app; left; exact Hin|exact Hr]. }
  destruct H as [(_ & E1 & H)|[(d & txx & -> & St & _ & E1 & _ & H)|(b & an & pad & pkt & rxx & -> & St & Pb & E1 & _ & E2 & H)]].
  - exists rx, l. rewrite E1, Quiet by (intros b Hb; apply (only_error_in _ _ H) in Hb; discriminate). repeat (split; [first [reflexivity|assumption]|]). assumption.
  - exists rx, l. rewrite E1, Quiet by (intros x Hx; destruct H as [(p & b & _ & _ & ->)|H]; [destruct Hx as [Hx|[]]; discriminate|apply (only_error_in _ _ H) in Hx; discriminate]).
    repeat (split; [first [reflexivity|assumption]|]). assumption.
  - rewrite T in E1. apply Some_inj in E1. subst rxx. pose proof (packet_parse_inv _ _ Pb) as ((G & _) & _).
    destruct (decode_pkt_ok P k rx pkt pad HO I D G) as (J1 & J2 & J3 & J4). destruct H as [(d & Ed & ->)|H].
    + destruct (J4 d Ed) as (L & L2 & r & Er & Dr). cbv zeta in L, L2, Dr.
      exists (snd (decode_pkt P rx pkt pad)), (l ++ [{| dm_seq := union_sequence pad (tm_body (tp_meta pkt)); dm_data := d |}])%list.
      split; [exact E2|]. split; [exact J1|]. split; [exact J2|]. split; [rewrite Ad1, A1, map_app; reflexivity|].
      split; [apply Forall_app; split; [exact A3'|constructor; [|constructor]]|].
      { exists b, an, pad, [EvRx d], pkt, r. split; [apply in_or_app; right; left; reflexivity|]. split; [left; reflexivity|]. auto. }
      split; [apply Forall_app; split; [|constructor; [cbn [dm_seq]; lia|constructor]]|].
      * eapply Forall_impl; [|exact A4]. cbv beta. intros a Ha. lia.
      * apply sorted_app; [exact A5|repeat constructor|]. intros x y Hx [<-|[]]. cbn [dm_seq]. rewrite Forall_forall in A4. specialize (A4 x Hx). lia.
    + exists (snd (decode_pkt P rx pkt pad)), l. split; [exact E2|]. split; [exact J1|]. split; [exact J2|].
      split; [apply Quiet; intros x Hx; apply (only_error_in _ _ H) in Hx; discriminate|]. split; [exact A3'|]. split; [|exact A5]. eapply Forall_impl; [|exact A4]. cbv beta. intros a Ha. lia.
Qed.
Lemma sorted_subsequence {X Y} (f : X -> N) (g : Y -> N) (u : X -> bytes) (v : Y -> bytes) : forall m l,
  StronglySorted (fun x y => g x < g y) m -> StronglySorted (fun x y => f x < f y) l ->
  Forall (fun x => exists y, In y m /\ g y = f x /\ v y = u x) l -> subsequence (map u l) (map v m).
Proof.
  induction m as [|y m IH]; intros l Sm Sl H.
  - destruct l as [|x l]; [constructor|]. inversion H as [|? ? (y & [] & _) _].
  - destruct l as [|x l]; [constructor|]. cbn [map]. inversion Sm as [|? ? Sm' Fm]; subst. inversion H as [|? ? (z & [Hz|Hz] & E1 & E2) H']; subst.
    + rewrite <- E2. apply sub_keep. inversion Sl as [|? ? Sl' Fl]; subst. apply IH; [exact Sm'|exact Sl'|]. rewrite Forall_forall in *. intros w Hw.
      destruct (H' w Hw) as (y' & [Hy|Hy] & F1 & F2); [|eauto]. subst y'. specialize (Fl w Hw). lia.
    + apply sub_drop. change (u x :: map u l) with (map u (x :: l)). apply IH; [exact Sm'|exact Sl|]. constructor; [eauto|].
      inversion Sl as [|? ? Sl' Fl]; subst. rewrite Forall_forall in *. intros w Hw. destruct (H' w Hw) as (y' & [Hy|Hy] & F1 & F2); [|eauto]. subst y'.
      specialize (Fl w Hw). specialize (Fm z Hz). lia.
Qed.
Lemma meta_wire_inj m m' : good_meta m -> good_meta m' -> meta_wire m = meta_wire m' -> m = m'.
Proof.
  intros G G' E. pose proof (meta_parse_ok m [] G) as A. pose proof (meta_parse_ok m' [] G') as B. rewrite E in A. rewrite A in B. apply Val_inj in B. congruence.
Qed.
Lemma fresh_state P c ks kr : good_stream_key ks \/ good_stream_key kr -> fresh_streams P c ks kr ->
  (good_stream_key ks -> exists tx, tc_tx c = Some tx /\ inv P ks tx /\ sc_dir tx = ENCODE) /\ (good_stream_key kr -> exists rx, tc_rx c = Some rx /\ inv P kr rx /\ sc_dir rx = DECODE).
Proof.
  intros _ (tx & rx & s1 & s1' & s2 & s2' & T & R & Ct & Cr). split; intros G.
  - destruct (create_inv _ _ _ _ _ _ G Ct) as (I & _ & D & _). eauto.
  - destruct (create_inv _ _ _ _ _ _ G Cr) as (I & _ & D & _). eauto.
Qed.
Lemma messages_arrive_in_order P k q q' ca ha ca' cb hb cb' : hmac_ok P -> ctr_ok P -> aead_ok P -> good_stream_key k ->
  tc_status ca = T_ACTIVE -> tc_handshake ca = None -> fresh_streams P ca k q -> reach P ca ha ca' ->
  tc_status cb = T_ACTIVE -> tc_handshake cb = None -> fresh_streams P cb q' k -> reach P cb hb cb' ->
  no_forgery P ha hb -> subsequence (delivered hb) (sent_data ha).
Proof.
  intros HO CO AO G Sa Ha Fa Ra Sb Hb Fb Rb NF.
  assert (RA : running ca) by (destruct Fa as (tx & rx & s1 & s2 & s3 & s4 & A & B & _); repeat split; eauto).
  assert (RB : running cb) by (destruct Fb as (tx & rx & s1 & s2 & s3 & s4 & A & B & _); repeat split; eauto).
  destruct (sender_reach P k ca ha ca' HO CO AO RA (proj1 (fresh_state P ca k q (or_introl G) Fa) G) Ra) as (tx & l & _ & _ & _ & A1 & A2 & A3 & _ & A5).
  destruct (receiver_reach P k cb hb cb' HO RB (proj2 (fresh_state P cb q' k (or_intror G) Fb) G) Rb) as (rx & m & _ & _ & _ & B1 & B3 & _ & B5).
  rewrite A2, B1. apply (sorted_subsequence dm_seq sm_seq); [exact A5|exact B5|]. rewrite Forall_forall in *. intros x Hx.
  destruct (B3 x Hx) as (b & an & pad & ev & p & r & Hin & He & Pp & Pr & Es & Dx).
  pose proof (packet_parse_inv _ _ Pp) as ((Gm & _) & _). pose proof (result_parse_inv _ _ Pr) as (Gr & _).
  assert (Op : exists key, opened P r key (meta_wire (tp_meta p)) (dm_data x)).
  { exists (ck_data (packet_key P k (dm_seq x))). refine (proj2 (decrypt_opened P r (Some (meta_wire (tp_meta p))) (packet_key P k (dm_seq x)) (dm_data x) _ Gr _ Dx)).
    - destruct (evolve_ok P k _ (dm_seq x) HO (inv_set P k k 0 DECODE None 0 G eq_refl eq_refl) ltac:(cbn; lia)) as (k' & _ & Gk & _ & Mk & _).
      assert (PK : sk_cipher k' = packet_key P k (dm_seq x)) by (apply good_cipher; [exact Gk|rewrite Mk; reflexivity]). rewrite <- PK. apply Gk.
    - intros y Hy. apply Some_inj in Hy. subst y. rewrite meta_wire_len. unfold meta_size, INT_MAX. destruct (tm_body (tp_meta p)); lia. }
  destruct Op as [key Op].
  destruct (NF b an pad ev (dm_data x) (meta_wire (tp_meta p)) r key Hin He) as (w & Hw & Sw); [exists p; auto|exact Op|].
  rewrite A1 in Hw. apply in_map_iff in Hw. destruct Hw as (y & <- & Hy). destruct (A3 y Hy _ _ Sw) as (Ea & Ln & Dd).
  apply meta_wire_inj in Ea; [|exact Gm|split; [reflexivity|exact Ln]]. assert (En : dm_seq x = sm_seq y) by (rewrite Es, Ea; reflexivity).
  exists y. split; [exact Hy|]. split; [symmetry; exact En|]. symmetry. apply Dd. rewrite <- En. exact Dx.
Qed.
