(* Rules for the functions of Model/HeapChannel.v. *)
From Verif.Base Require Import Bytes Monad.
From Verif.Model Require Import Buffer Cipher Ecdsa Prims Engine Keys Stream TransportPacket Transport Heap HeapObjects HeapMessages HeapParse HeapWrite HeapEngine HeapProtocol HeapGenerate HeapContext HeapStream HeapChannel.
From Verif.Spec Require Import HeapSpec HeapObjectSpec BufferSpec CopySpec HeapParseSpec HeapWriteSpec HeapEngineSpec HeapProtocolSpec HeapGenerateSpec HeapContextSpec HeapStreamSpec HeapChannelSpec.
From Verif.Proofs Require Import BytesFacts BufferFacts ParserFacts HeapFacts HeapObjectFacts HeapMessageFacts HeapCtxFacts HeapParseFacts HeapWriteFacts HeapEngineFacts HeapKdfFacts HeapProtocolFacts HeapGenerateFacts HeapContextFacts HeapStreamFacts HeapSendingFacts.
From Verif.Proofs Require CodecFacts TransportPacketFacts.
From Coq Require Import Permutation ZifyBool ZifyNat ZifyN.
Local Open Scope N_scope.

(* changing an object inside another operation, with arguments that were made there *)
Lemma use_inside {A} args owned (left : A -> list cell) right public exposed untested leak op : use_rule args owned left right public exposed untested leak op ->
  forall secret (U W : Prop) fails h0 X h (Q : A -> heap -> Prop),
    (forall n ty, In ty untested -> fails n ty = true -> U) -> (leak fails -> W) ->
    ext secret W h0 (owned ++ X) h -> stable secret W h0 X args -> keeps_secret secret public -> (some_failure fails -> keeps_secret secret exposed) ->
    (forall a h1, ext secret W h0 (left a ++ X) h1 -> right fails a -> Q a h1) ->
    wp U fails op h Q.
Proof.
  intros R secret U W fails h0 X h Q HU HW E ST K KE QA. pose proof (ext_forget _ _ _ _ _ _ E) as E'.
  eapply R with (W := W) (h0 := without h owned) (X := []); [exact HU|exact HW| |exact (ST [] _ E')|exact K|exact KE|].
  - exists []. split; [left; reflexivity|]. rewrite app_nil_r. cbn [app]. apply ext0_without; [exact (ext_ok _ _ _ _ _ E)|exact (made_in_memory _ _ _ _ _ _ E)].
  - intros a h1 E1 G. rewrite app_nil_r in E1. apply QA; [|exact G]. exact (ext_trans _ _ _ _ _ _ _ E' E1).
Qed.
Lemma tmeta_write_rule m : op_rule buf_cells b_bytes [] (lift (tmeta_serialize m)) [] [] [] never_leaks_op (h_tmeta_serialize m).
Proof.
  start_op. unfold h_tmeta_serialize. destruct (tmeta_serialize m) as [c|] eqn:Z; cbn [lift hstep] in *.
  2:{ wstep. gone. left. reflexivity. }
  pose proof (tmeta_made _ _ Z) as Y. put.
  - rewrite Y in N. discriminate N.
  - gone. right. sfailed.
  - there. rewrite Y in V. apply Some_inj' in V. subst c. reflexivity.
Qed.
Lemma header_real m c : tmeta_serialize m = Some c -> real c.
Proof.
  intros Z. assert (L : blen c = 9 \/ blen c = 10).
  { unfold tmeta_serialize, buffer_create in Z. destruct (tm_body m); (destruct (size_ok _); [|discriminate Z]); apply Some_inj' in Z; subst c; first [left; reflexivity|right; reflexivity]. }
  unfold real, within_limit, library_limit. lia.
Qed.
(* giving an answer with the stream *)
Ltac give := match goal with QA : forall a h1, ext _ _ _ _ h1 -> _ -> ?Q a h1 |- ?Q _ ?h => apply QA; cbn [fst snd cells_opt]; [rewrite <- ?app_assoc; eapply ext_perm; [|eassumption]; solve_perm|] end.

Section channel.
  Context (P : prims).

  Lemma encode_eq tx data : encode_pkt P tx data =
    match next_header tx with
    | None => (Null, tx)
    | Some _ => (rbind (next_text P tx data) (fun x => rbind (lift (cipher_result_serialize (Some x))) (fun b => lift (tpacket_create (meta_data (next_number tx) MAC_AUTH_CIPHER) (Some b)))),
                 snd (stream_ctx_encode P tx (Some data) (next_header tx) (next_number tx)))
    end.
  Proof.
    unfold encode_pkt, next_text, next_header, next_number. cbv zeta. destruct (tmeta_serialize _) as [aad|]; [|reflexivity].
    destruct (stream_ctx_encode P tx (Some data) (Some aad) _) as [r tx']. reflexivity.
  Qed.
  Lemma encode_pkt_rule (R0 : rand_ok P) (R : hmac_ok P) (A : aead_ok P) (C : ctr_ok P) tx data (MC : usable_stream (sc_value tx)) :
    use_rule [buf_cells data] (sc_cells tx) (with_ctx tp_cells)
      (advances tp_value tx (encode_pkt P (sc_value tx) (b_bytes data)) [sc_value tx; nonce_spent P (sc_value tx); snd (encode_pkt P (sc_value tx) (b_bytes data))])
      (send_public P (sc_value tx) (b_bytes data)) [] send_kinds never_leaks_op (h_encode_pkt P tx data).
  Proof.
    begin_change. rewrite encode_eq in QA. unfold h_encode_pkt, advances, with_ctx, send_public, send_kinds in *. inside tx sc_cells. wstep. wstep. cbv zeta.
    change (wadd64 (hsc_last tx) 1) with (next_number (sc_value tx)). set (meta := meta_data (next_number (sc_value tx)) MAC_AUTH_CIPHER) in *.
    change (next_header (sc_value tx)) with (tmeta_serialize meta) in *. unfold next_text in *. change (next_header (sc_value tx)) with (tmeta_serialize meta) in *.
    wstep. call (tmeta_write_rule meta).
    - intros Z. destruct (lift_ub _ Z).
    - apply lift_null in N. rewrite N in *. wstep. give. split; [repeat split|left; reflexivity].
    - wstep. give. split; [repeat split|]. right. split; [exact F|left; reflexivity].
    - apply lift_val in V. rewrite V in *. cbn [opt_list] in K. wstep.
      assert (MA : if_set real (option_map b_bytes (Some t))) by (intros x Z; apply Some_inj' in Z; subst x; exact (header_real _ _ V)).
      pull E0 (sc_cells tx).
      eapply (use_inside _ _ _ _ _ _ _ _ _ (stream_encode_rule P R0 R A C tx (Some data) (Some t) (next_number (sc_value tx)) MC MA)) with (W := W);
        [exact HU|intros []|exact E0| |part_of K|intros _; exact K0|].
      { apply (stable_app _ _ _ _ [_] [_]); [|apply stable_made]. apply stable_source. apply Forall_cons; [assumption|apply Forall_nil]. }
      intros (o & tx') h2 E1 (SP & G). clear E0. cbn [fst snd option_map] in *. unfold with_ctx in E1. cbn [fst snd] in E1. norm E1. rel t; [part_of K|].
      destruct o as [c|]; cbn [cells_opt] in *.
      2:{ wstep. give. split; [exact SP|]. destruct G as [G|(F & G)]; [left; rewrite G; reflexivity|]. right. split; [exact F|exact G]. }
      rewrite G in *. cbn [fst snd rbind plain_of] in *.
      wstep. call (write_op cr_cells cr_value _ _ _ _ c cipher_result_write).
      + intros Z. destruct (lift_ub _ Z).
      + rewrite N in *. cbn [rbind] in *. rid cipher_result_destroy_rule c; [part_of K|]. wstep. give. split; [exact SP|left; reflexivity].
      + rid cipher_result_destroy_rule c; [part_of K|]. wstep. give. split; [exact SP|]. right. split; [exact F|]. right. right. left. reflexivity.
      + rewrite V0 in *. apply lift_val in V0. rewrite V0 in K. cbn [rbind opt_list] in *. rid cipher_result_destroy_rule c; [part_of K|]. wstep. unfold h_tpacket_create. wstep. wstep.
        * wstep. rel t0; [part_of K|]. wstep. give. split; [exact SP|]. right. split; [sfailed|]. right. right. left. reflexivity.
        * repeat wstep. apply QA; cbn [fst snd cells_opt].
          -- unfold tp_cells. cbn [htp_addr htp_network htp_body htp_mac cells_opt]. eapply ext_perm; [|eassumption]. solve_perm.
          -- split; [exact SP|]. reflexivity.
  Qed.
  Lemma sent_plain tx data p : fst (encode_pkt P tx data) = Val p -> incl (tp_plain p ++ tp_written p) (send_public P tx data).
  Proof.
    rewrite encode_eq. unfold send_public. destruct (next_header tx) as [c|] eqn:Z; [|discriminate]. cbn [fst]. destruct (next_text P tx data) as [x| |]; cbn [rbind plain_of]; try discriminate.
    destruct (cipher_result_serialize (Some x)) as [b|]; cbn [lift rbind opt_list]; try discriminate. unfold tpacket_create. cbn [lift]. intros V. injection V as V. subst p.
    unfold tp_plain, tp_written. cbn [tp_network tp_body tp_mac tp_meta opt_list app]. change (tmeta_serialize (meta_data (next_number tx) MAC_AUTH_CIPHER)) with (next_header tx). rewrite Z.
    intros z I. cbn [app opt_list] in *. rewrite !in_app_iff. cbn [In] in *. rewrite in_app_iff. cbn [In]. tauto.
  Qed.
  Lemma channel_send_rule (R0 : rand_ok P) (R : hmac_ok P) (A : aead_ok P) (C : ctr_ok P) tx data (MC : usable_stream (sc_value tx)) :
    use_rule [buf_cells data] (sc_cells tx) (with_ctx buf_cells) (send_right P tx (b_bytes data))
      (send_public P (sc_value tx) (b_bytes data)) [] send_kinds never_leaks_op (h_channel_send P tx data).
  Proof.
    begin_change. unfold h_channel_send. wstep.
    eapply (use_inside _ _ _ _ _ _ _ _ _ (encode_pkt_rule R0 R A C tx data MC)) with (W := W); [exact HU|intros []|exact E| |exact K|intros _; exact K0|].
    { apply stable_source. apply Forall_cons; [assumption|apply Forall_nil]. }
    intros (o & tx') h1 E1 (SP & G). clear E. pose proof (sent_plain (sc_value tx) (b_bytes data)) as SPL.
    unfold send_right, sends_to, advances, with_ctx in *. cbn [fst snd] in *. destruct (encode_pkt P (sc_value tx) (b_bytes data)) as (pure & tx1). cbn [fst snd] in *.
    destruct o as [p|]; cbn [cells_opt] in *.
    2:{ wstep. give. split; [exact SP|]. destruct G as [G|(F & G)]; [left; injection G as -> ->; reflexivity|]. right. split; [exact F|exact G]. }
    injection G as -> ->. specialize (SPL _ eq_refl). cbn [rbind] in *. norm E1.
    assert (KP : keeps_secret secret (tp_plain (tp_value p) ++ tp_written (tp_value p))) by (refine (keeps_sub _ _ _ K _); exact SPL). clear SPL.
    wstep. call (write_op tp_cells tp_value _ _ _ _ p tpacket_write).
    - intros Z. destruct (lift_ub _ Z).
    - rid tpacket_destroy_rule p; [part_of KP|]. wstep. give. split; [exact SP|]. left. rewrite N. reflexivity.
    - rid tpacket_destroy_rule p; [part_of KP|]. wstep. give. split; [exact SP|]. right. split; [exact F|]. right. right. left. reflexivity.
    - rid tpacket_destroy_rule p; [part_of KP|]. wstep. give. split; [exact SP|]. rewrite V. reflexivity.
  Qed.

  Definition packet_public (p : tpacket) : list bytes :=
    sections (tp_body p) ++ opt_list (tmeta_serialize (tp_meta p)) ++ plain_of cr_plain (cipher_result_from_buffer (Some (tp_body p))).
  Lemma decode_pkt_rule (R : hmac_ok P) (A : aead_len_ok P) (C : ctr_ok P) rx pkt pad draft (MC : made_stream_ctx (sc_value rx)) :
    use_rule [tp_cells pkt] (sc_cells rx) (with_ctx buf_cells)
      (advances b_bytes rx (decode_pkt P (sc_value rx) (tp_value pkt) pad) [sc_value rx; snd (decode_pkt P (sc_value rx) (tp_value pkt) pad)])
      (user_data (sc_value rx) ++ packet_public (tp_value pkt)) [] receive_kinds never_leaks_op (h_decode_pkt P rx pkt pad draft).
  Proof.
    begin_change. unfold h_decode_pkt, decode_pkt, advances, with_ctx, packet_public, receive_kinds in *. cbn [fst snd] in *.
    change (tp_body (tp_value pkt)) with (b_bytes (htp_body pkt)) in *. change (tp_meta (tp_value pkt)) with (htp_meta pkt) in *.
    inner pkt tp_cells. wstep. wstep. rd. wstep. call (parse_op cr_cells cr_value _ _ _ _ _ (b_bytes (htp_body pkt)) cipher_result_parse_rule).
    - intros Z. destruct (CodecFacts.result_parse_safe _ Z).
    - rewrite N in *. wstep. give. split; [repeat split|left; reflexivity].
    - wstep. give. split; [repeat split|]. right. split; [exact F|left; reflexivity].
    - rewrite V in *. cbn [plain_of] in *. destruct (tm_mac (htp_meta pkt) =? MAC_AUTH_CIPHER); cbn [negb] in *.
      2:{ rid cipher_result_destroy_rule t; [part_of K|]. wstep. give. split; [repeat split|left; reflexivity]. }
      wstep. call (tmeta_write_rule (htp_meta pkt)).
      + intros Z. destruct (lift_ub _ Z).
      + apply lift_null in N. rewrite N in *. rid cipher_result_destroy_rule t; [part_of K|]. wstep. give. split; [repeat split|left; reflexivity].
      + rid cipher_result_destroy_rule t; [part_of K|]. wstep. give. split; [repeat split|]. right. split; [exact F|left; reflexivity].
      + apply lift_val in V0. rewrite V0 in *. cbn [opt_list] in K. wstep.
        assert (MD : if_set made_cipher_result (option_map cr_value (Some t))) by (intros x Z; apply Some_inj' in Z; subst x; exact (result_made _ _ V)).
        at_heap ltac:(fun E => pull E (sc_cells rx)).
        match goal with E9 : ext _ _ _ _ ?h |- wp _ _ _ ?h _ =>
        eapply (use_inside _ _ _ _ _ _ _ _ _ (stream_decode_rule P R A C rx (Some t) (Some t0) (union_sequence pad (tm_body (htp_meta pkt))) draft MC MD)) with (W := W);
          [intros n ty I; apply HU; destruct I as [I|[]]; left; exact I|intros []|exact E9| |part_of K|intros _; exact K0|clear E9] end.
        { apply (stable_app _ _ _ _ [_] [_]); [apply stable_more|]; apply stable_made. }
        intros (o & rx') h9 E9 (SP & G). cbn [fst snd option_map] in *. unfold with_ctx in E9. cbn [fst snd] in E9. norm E9.
        rid cipher_result_destroy_rule t; [part_of K|]. rel t0; [part_of K|]. wstep. give. split; [exact SP|exact G].
  Qed.
  Lemma channel_receive_rule (R : hmac_ok P) (A : aead_len_ok P) (C : ctr_ok P) rx b pad draft (MC : made_stream_ctx (sc_value rx)) :
    use_rule [buf_cells b] (sc_cells rx) (with_ctx buf_cells) (receive_right P rx (b_bytes b) pad)
      (receive_public (sc_value rx) (b_bytes b)) [] receive_kinds never_leaks_op (h_channel_receive P rx b pad draft).
  Proof.
    begin_change. unfold h_channel_receive, receive_right, receives_to, advances, with_ctx, receive_public, came_in in *. cbn [fst snd] in *.
    rd. wstep. call (parse_op tp_cells tp_value _ _ _ _ _ (b_bytes b) tpacket_parse_rule).
    - intros Z. destruct (TransportPacketFacts.packet_parse_safe _ Z).
    - rewrite N in *. wstep. give. split; [repeat split|left; reflexivity].
    - wstep. give. split; [repeat split|]. right. split; [exact F|left; reflexivity].
    - rewrite V in *. cbn [plain_of] in *. wstep. at_heap ltac:(fun E => pull E (sc_cells rx)).
      match goal with E9 : ext _ _ _ _ ?h |- wp _ _ _ ?h _ =>
      eapply (use_inside _ _ _ _ _ _ _ _ _ (decode_pkt_rule R A C rx t pad draft MC)) with (W := W);
        [exact HU|intros []|exact E9|apply stable_made|unfold packet_public; part_of K|intros _; exact K0|clear E9] end.
      intros (o & rx') h9 E9 (SP & G). cbn [fst snd option_map] in *. unfold with_ctx in E9. cbn [fst snd] in E9. norm E9.
      rid tpacket_destroy_rule t; [unfold tp_plain; part_of K|]. wstep. give. split; [exact SP|exact G].
  Qed.
End channel.

(* ---- a whole exchange ---- *)
From Verif.Spec Require Import StreamSpec TransportSpec HandshakeSpec.
From Verif.Proofs Require Import StreamFacts TransportPacketFacts TransportFacts.
Section exchange.
  Context (P : prims).

  Definition carries (k : stream_key) (d : direction) (c : stream_ctx) : Prop := usable_stream c /\ inv P k c /\ sc_dir c = d.
  Lemma new_carries k d c : new_stream k d c -> carries k d c.
  Proof.
    intros (G & U & K & L & D). split; [exact U|]. split; [|exact D]. split; rewrite ?K, ?L; [exact G|reflexivity|].
    replace (0 / sk_ppe k) with 0 by (symmetry; apply N.div_0_l; destruct G as (_ & _ & _ & Z & _); lia). reflexivity.
  Qed.
  Lemma spent_carries (R : hmac_ok P) k d c : carries k d c -> carries k d (nonce_spent P c) /\ sc_last (nonce_spent P c) = sc_last c.
  Proof. intros (U & [I1 I2 I3] & D). split; [|reflexivity]. split; [exact (proj1 (nonce_spent_moved P R _ U))|]. split; [split; assumption|exact D]. Qed.
  Lemma sends_state tx data : snd (sends_to P tx data) = snd (encode_pkt P tx data).
  Proof. reflexivity. Qed.
  Lemma encode_carries (R : hmac_ok P) k c data : carries k ENCODE c -> carries k ENCODE (snd (encode_pkt P c data)) /\ sc_last c <= sc_last (snd (encode_pkt P c data)).
  Proof.
    intros (U & I & D). destruct (encode_pkt_inv P k c data R I D) as (J1 & J2 & J3 & _). split; [|exact J3]. split; [|split; assumption].
    rewrite encode_eq. destruct (next_header c); [|exact U]. exact (proj1 (encode_moved P R c _ _ _ U)).
  Qed.
  Definition sends_numbers (k : stream_key) (tx : stream_ctx) (sent : list (option bytes * bytes)) (nums : list N) : Prop :=
    length nums = length sent /\ (forall a w d, nth_error sent a = Some (Some w, d) -> exists n, nth_error nums a = Some n /\ msg_ok P k {| sm_seq := n; sm_wire := w; sm_data := d |}) /\
    (forall a b n m, (a <= b)%nat -> nth_error nums a = Some n -> nth_error nums b = Some m -> n <= m) /\ (forall a n, nth_error nums a = Some n -> n <= sc_last tx).
  Lemma nth_last {X} (l : list X) x a y : nth_error (l ++ [x]) a = Some y -> (a < length l)%nat /\ nth_error l a = Some y \/ a = length l /\ y = x.
  Proof.
    intros Z. destruct (Nat.lt_ge_cases a (length l)) as [L|L]; [left|right].
    - rewrite nth_error_app1 in Z by exact L. split; assumption.
    - rewrite nth_error_app2 in Z by exact L. destruct (a - length l)%nat as [|q] eqn:Q; [|destruct q; discriminate Z]. cbn in Z. apply Some_inj' in Z. split; [lia|congruence].
  Qed.
  Lemma sender_numbers (R0 : rand_ok P) (R : hmac_ok P) (A : aead_ok P) (C : ctr_ok P) k tx0 sent tx : new_stream k ENCODE (sc_value tx0) -> channel_sent P tx0 sent tx ->
    carries k ENCODE (sc_value tx) /\ exists nums, sends_numbers k (sc_value tx) sent nums.
  Proof.
    intros N0 S. induction S as [|l tx data fails h answer tx' h' S (CA & nums & NL & N1 & N2 & N3) OK M MA SE V].
    { split; [exact (new_carries _ _ _ N0)|]. exists []. split; [reflexivity|]. split; [intros a w d Z; destruct a; discriminate Z|]. split; [intros a b n m _ Z; destruct a; discriminate Z|intros a n Z; destruct a; discriminate Z]. }
    pose proof (ran _ _ _ _ _ _ _ _ _ _ _ _ _ (channel_send_rule P R0 R A C tx data (proj1 CA)) OK M MA SE V) as (SP & G). cbn [fst snd] in *.
    assert (ST : carries k ENCODE (sc_value tx') /\ sc_last (sc_value tx) <= sc_last (sc_value tx') /\
      (forall w, option_map b_bytes answer = Some w -> msg_ok P k {| sm_seq := sc_last (sc_value tx'); sm_wire := w; sm_data := b_bytes data |})).
    { assert (EN : snd (sends_to P (sc_value tx) (b_bytes data)) = sc_value tx' -> carries k ENCODE (sc_value tx') /\ sc_last (sc_value tx) <= sc_last (sc_value tx'))
        by (intros <-; exact (encode_carries R k _ _ CA)).
      destruct answer as [t|].
      - destruct (EN ltac:(rewrite G; reflexivity)) as (C1 & L1). split; [exact C1|]. split; [exact L1|]. intros w Z. apply Some_inj' in Z. subst w.
        unfold sends_to in G. destruct (encode_pkt P (sc_value tx) (b_bytes data)) as [r x] eqn:E. cbn [fst snd] in G. apply pair_equal_spec in G. destruct G as (G & ->).
        destruct r as [p| |]; cbn [rbind] in G; try discriminate G. apply lift_val in G.
        destruct (encode_pkt_ok P k _ _ _ _ _ R C A (proj1 (proj2 CA)) E G) as (_ & MO).
        destruct (encode_pkt_inv P k (sc_value tx) (b_bytes data) R (proj1 (proj2 CA)) (proj2 (proj2 CA))) as (_ & _ & _ & J). rewrite E in J. cbn [fst snd] in J. rewrite (J p eq_refl). exact MO.
      - assert (Q : carries k ENCODE (sc_value tx') /\ sc_last (sc_value tx) <= sc_last (sc_value tx')).
        { destruct G as [G|(_ & [G|[G|[G|[]]]])].
          - apply EN. rewrite G. reflexivity.
          - rewrite <- G. split; [exact CA|apply N.le_refl].
          - rewrite <- G. destruct (spent_carries R k _ _ CA) as (Q1 & Q2). split; [exact Q1|]. rewrite Q2. apply N.le_refl.
          - apply EN. exact G. }
        split; [apply Q|]. split; [apply Q|]. intros w Z. discriminate Z. }
    destruct ST as (C1 & L1 & MO). split; [exact C1|]. exists (nums ++ [sc_last (sc_value tx')])%list. split; [rewrite !app_length, NL; reflexivity|]. split; [|split].
    - intros a w d Z. apply nth_last in Z. destruct Z as [(L & Z)|(-> & Z)].
      + destruct (N1 _ _ _ Z) as (n & Q1 & Q2). exists n. split; [|exact Q2]. rewrite nth_error_app1 by lia. exact Q1.
      + apply pair_equal_spec in Z. destruct Z as (Z & ->). exists (sc_last (sc_value tx')). split; [|apply MO; symmetry; exact Z]. rewrite nth_error_app2 by lia. rewrite NL, Nat.sub_diag. reflexivity.
    - intros a b n m AB Z1 Z2. apply nth_last in Z1, Z2. destruct Z1 as [(La & Z1)|(-> & ->)], Z2 as [(Lb & Z2)|(-> & ->)]; [exact (N2 _ _ _ _ AB Z1 Z2)| |lia|lia]. pose proof (N3 _ _ Z1). lia.
    - intros a n Z. apply nth_last in Z. destruct Z as [(L & Z)|(-> & ->)]; [pose proof (N3 _ _ Z); lia|lia].
  Qed.
  Definition takes (k : stream_key) (w : bytes) (x : bytes) (n : N) : Prop := exists p r pad, tpacket_create_from_buffer (Some w) = Val p /\ cipher_result_from_buffer (Some (tp_body p)) = Val r /\
    n = union_sequence pad (tm_body (tp_meta p)) /\ aes256_decrypt P (Some r) (Some (meta_wire (tp_meta p))) (Some (packet_key P k n)) true = Val x.
  Definition takes_numbers (k : stream_key) (rx : stream_ctx) (got : list (bytes * option bytes)) (nums : list N) : Prop :=
    length nums = length got /\ (forall i w x, nth_error got i = Some (w, Some x) -> exists n, nth_error nums i = Some n /\ takes k w x n /\ (forall j m, (j < i)%nat -> nth_error nums j = Some m -> m < n)) /\
    (forall i n, nth_error nums i = Some n -> n <= sc_last rx).
  Lemma receive_carries (R : hmac_ok P) k c b pad : carries k DECODE c -> carries k DECODE (snd (receives_to P c b pad)) /\ sc_last c <= sc_last (snd (receives_to P c b pad)) /\
    (forall x, fst (receives_to P c b pad) = Val x -> sc_last c < sc_last (snd (receives_to P c b pad)) /\ takes k b x (sc_last (snd (receives_to P c b pad)))).
  Proof.
    intros CA. unfold receives_to. destruct (tpacket_create_from_buffer (Some b)) as [p| |] eqn:E; [|split; [exact CA|]; split; [apply N.le_refl|]; intros x Z; discriminate Z..].
    destruct CA as (U & I & D). pose proof (packet_parse_inv _ _ E) as ((Gm & _) & _). destruct (decode_pkt_ok P k c p pad R I D Gm) as (J1 & J2 & J3 & J4). split; [split; [|split; assumption]|split; [exact J3|]].
    - unfold decode_pkt. destruct (cipher_result_from_buffer _); try exact U. destruct (negb _); [exact U|]. destruct (tmeta_serialize _); [|exact U]. exact (proj1 (decode_moved P R c _ _ _ U)).
    - intros x Z. destruct (J4 x Z) as (L & L2 & r & Er & Dr). cbv zeta in *. rewrite L2. split; [exact L|]. exists p, r, pad. repeat split; assumption.
  Qed.
  Lemma receiver_numbers (R : hmac_ok P) (A : aead_len_ok P) (C : ctr_ok P) k rx0 got rx : new_stream k DECODE (sc_value rx0) -> channel_received P rx0 got rx ->
    carries k DECODE (sc_value rx) /\ exists nums, takes_numbers k (sc_value rx) got nums.
  Proof.
    intros N0 S. induction S as [|l rx b pad draft fails h answer rx' h' S (CA & nums & NL & N1 & N3) OK M MA SE V].
    { split; [exact (new_carries _ _ _ N0)|]. exists []. split; [reflexivity|]. split; [intros a w d Z; destruct a; discriminate Z|intros a n Z; destruct a; discriminate Z]. }
    pose proof (ran _ _ _ _ _ _ _ _ _ _ _ _ _ (channel_receive_rule P R A C rx b pad draft (proj1 (proj1 CA))) OK M MA SE V) as (SP & G). cbn [fst snd] in *.
    destruct (receive_carries R k (sc_value rx) (b_bytes b) pad CA) as (C1 & L1 & T1).
    assert (ST : carries k DECODE (sc_value rx') /\ sc_last (sc_value rx) <= sc_last (sc_value rx') /\
      (forall x, option_map b_bytes answer = Some x -> sc_last (sc_value rx) < sc_last (sc_value rx') /\ takes k (b_bytes b) x (sc_last (sc_value rx')))).
    { destruct answer as [t|].
      - rewrite G in C1, L1, T1. cbn [fst snd] in *. split; [exact C1|]. split; [exact L1|]. intros x Z. apply Some_inj' in Z. subst x. exact (T1 _ eq_refl).
      - assert (Q : carries k DECODE (sc_value rx') /\ sc_last (sc_value rx) <= sc_last (sc_value rx')).
        { destruct G as [G|(_ & [G|[G|[]]])]; [rewrite G in C1, L1; split; assumption| |rewrite <- G; split; assumption]. rewrite <- G. split; [exact CA|apply N.le_refl]. }
        split; [apply Q|]. split; [apply Q|]. intros w Z. discriminate Z. }
    clear C1 L1 T1. destruct ST as (C1 & L1 & MO). split; [exact C1|]. exists (nums ++ [sc_last (sc_value rx')])%list. split; [rewrite !app_length, NL; reflexivity|]. split.
    - intros i w x Z. apply nth_last in Z. destruct Z as [(L & Z)|(-> & Z)].
      + destruct (N1 _ _ _ Z) as (n & Q1 & Q2 & Q3). exists n. split; [rewrite nth_error_app1 by lia; exact Q1|]. split; [exact Q2|]. intros j m J Y. rewrite nth_error_app1 in Y by lia. exact (Q3 _ _ J Y).
      + apply pair_equal_spec in Z. destruct Z as (-> & Z). destruct (MO _ (eq_sym Z)) as (ML & MT). exists (sc_last (sc_value rx')). split; [rewrite nth_error_app2 by lia; rewrite NL, Nat.sub_diag; reflexivity|].
        split; [exact MT|]. intros j m J Y. rewrite nth_error_app1 in Y by lia. pose proof (N3 _ _ Y). lia.
    - intros i n Z. apply nth_last in Z. destruct Z as [(L & Z)|(-> & ->)]; [pose proof (N3 _ _ Z); lia|lia].
  Qed.
  Lemma takes_sent k w x n d m : takes k w x n -> msg_ok P k {| sm_seq := m; sm_wire := w; sm_data := d |} -> n = m /\ x = d.
  Proof.
    intros (p & r & pad & Pp & Pr & En & Dx) MO. destruct (MO (meta_wire (tp_meta p)) r) as (Ea & Ln & Dd); [exists p; auto|]. cbn [sm_seq sm_data sm_wire] in *.
    pose proof (packet_parse_inv _ _ Pp) as ((Gm & _) & _). pose proof Ea as Eb. apply meta_wire_inj in Eb; [|exact Gm|split; [reflexivity|exact Ln]].
    assert (E : n = m) by (rewrite En, Eb; reflexivity). split; [exact E|]. apply Dd. rewrite <- E. exact Dx.
  Qed.
  Lemma exchange_delivers (R0 : rand_ok P) (R : hmac_ok P) (A : aead_ok P) (AL : aead_len_ok P) (C : ctr_ok P) k tx0 sent tx rx0 got rx :
    new_stream k ENCODE (sc_value tx0) -> new_stream k DECODE (sc_value rx0) -> channel_sent P tx0 sent tx -> channel_received P rx0 got rx ->
    forall w d x, In (Some w, d) sent -> In (w, Some x) got -> x = d.
  Proof.
    intros N1 N2 S T w d x I J. destruct (sender_numbers R0 R A C _ _ _ _ N1 S) as (_ & ns & _ & S1 & _). destruct (receiver_numbers R AL C _ _ _ _ N2 T) as (_ & ms & _ & T1 & _).
    apply In_nth_error in I, J. destruct I as (a & I), J as (i & J). destruct (S1 _ _ _ I) as (n & _ & MO). destruct (T1 _ _ _ J) as (m & _ & TK & _). apply (takes_sent _ _ _ _ _ _ TK MO).
  Qed.
  Lemma exchange_in_order (R0 : rand_ok P) (R : hmac_ok P) (A : aead_ok P) (AL : aead_len_ok P) (C : ctr_ok P) k tx0 sent tx rx0 got rx :
    new_stream k ENCODE (sc_value tx0) -> new_stream k DECODE (sc_value rx0) -> channel_sent P tx0 sent tx -> channel_received P rx0 got rx ->
    forall a b v w d e i j x y, nth_error sent a = Some (Some v, d) -> nth_error sent b = Some (Some w, e) ->
      nth_error got i = Some (v, Some x) -> nth_error got j = Some (w, Some y) -> (i < j)%nat -> (a < b)%nat.
  Proof.
    intros N1 N2 S T a b v w d e i j x y Ia Ib Ji Jj IJ. destruct (sender_numbers R0 R A C _ _ _ _ N1 S) as (_ & ns & _ & S1 & S2 & _). destruct (receiver_numbers R AL C _ _ _ _ N2 T) as (_ & ms & _ & T1 & _).
    destruct (S1 _ _ _ Ia) as (na & Qa & Ma). destruct (S1 _ _ _ Ib) as (nb & Qb & Mb). destruct (T1 _ _ _ Ji) as (mi & Qi & Ti & _). destruct (T1 _ _ _ Jj) as (mj & Qj & Tj & Lj).
    destruct (takes_sent _ _ _ _ _ _ Ti Ma) as (-> & _). destruct (takes_sent _ _ _ _ _ _ Tj Mb) as (-> & _). specialize (Lj _ _ IJ Qi).
    destruct (Nat.lt_ge_cases a b) as [L|L]; [exact L|]. pose proof (S2 _ _ _ _ L Qb Qa). lia.
  Qed.
End exchange.
