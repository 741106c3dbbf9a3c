(* Concrete arguments for the theorems of Props/PropsHeapChannel.v, and what goes wrong with some. *)
From Verif.Base Require Import Bytes Monad.
From Verif.Model Require Import Buffer Cipher Prims Engine Stream TransportPacket Transport Heap HeapObjects HeapMessages HeapEngine HeapStream HeapChannel.
From Verif.Spec Require Import HeapSpec HeapObjectSpec CopySpec HeapEngineSpec HeapContextSpec HeapStreamSpec StreamSpec HeapChannelSpec.
From Verif.Proofs Require Import ToyPrims ToyObjects BytesFacts HeapFacts HeapObjectFacts HeapExamples HeapEngineFacts HeapEngineExamples HeapProtocolExamples HeapGenerateExamples HeapContextExamples HeapStreamExamples.
Local Open Scope N_scope.

(* the streams of Proofs/HeapStreamExamples.v: the next packet, number 4, is under an evolved key *)
Definition c_data : hbuf := Eval vm_compute in at_ 1%nat (pl_buf [x68; x65; x6c; x6c; x6f]).
Definition c_tx : hsc := Eval vm_compute in at_ 7%nat (pl_sc v_sender_stream).
Definition c_rx : hsc := Eval vm_compute in at_ 7%nat (pl_sc v_receiver_stream).
Definition wire_of (tx : stream_ctx) (d : bytes) : bytes := match fst (sends_to toy tx d) with Val w => w | _ => [] end.
Definition c_wire : hbuf := Eval vm_compute in at_ 1%nat (pl_buf (wire_of v_sender_stream (b_bytes c_data))).
(* a packet with another last byte, a packet that is signed and not sealed *)
Definition c_altered : hbuf := Eval vm_compute in at_ 1%nat (pl_buf (removelast (b_bytes c_wire) ++ [xff])).
Definition c_plain : hbuf := Eval vm_compute in at_ 1%nat (pl_buf (x10 :: tl (b_bytes c_wire))).
Lemma usable_c : usable_stream (sc_value c_tx) /\ usable_stream (sc_value c_rx).
Proof. exact (conj usable_sender usable_receiver). Qed.

(* an exchange over new streams *)
Definition v_new_tx : stream_ctx := {| sc_key := v_sk; sc_last := 0; sc_dir := ENCODE; sc_iv := Some {| si_cipher := AES256_GCM; si_seed := repeat x23 64; si_count := 0 |}; sc_refs := 1 |}.
Definition v_new_rx : stream_ctx := {| sc_key := v_sk; sc_last := 0; sc_dir := DECODE; sc_iv := None; sc_refs := 1 |}.
Definition n_tx : hsc := Eval vm_compute in at_ 7%nat (pl_sc v_new_tx).
Definition n_rx : hsc := Eval vm_compute in at_ 7%nat (pl_sc v_new_rx).
Lemma new_streams : new_stream v_sk ENCODE (sc_value n_tx) /\ new_stream v_sk DECODE (sc_value n_rx).
Proof.
  assert (G : good_stream_key v_sk).
  { split; [reflexivity|]. split; [reflexivity|]. split; [closed|]. split; [vm_compute; split; discriminate|]. intros u E. vm_compute in E. injection E as <-. closed. }
  split; (split; [exact G|]); (split; [|repeat split]); (split; [split; [|split]|]).
  - closed.
  - intros x E. vm_compute in E. injection E as <-. closed.
  - discriminate.
  - intros g E. vm_compute in E. injection E as <-. reflexivity.
  - closed.
  - intros x E. discriminate E.
  - discriminate.
  - intros g E. discriminate E.
Qed.
Definition second : hbuf := Eval vm_compute in at_ 1%nat (pl_buf [x62; x79; x65]).
Definition no_packet : schedule := fun _ ty => match ty with T_transport_packet => true | _ => false end.
Definition tx_after (tx : hsc) (d : hbuf) (fails : schedule) : hsc :=
  match h_channel_send toy tx d fails (heap_of (concat [sc_cells tx; buf_cells d])) with Some ((_, t), _) => t | None => tx end.
Definition rx_after (rx : hsc) (b : hbuf) (fails : schedule) : hsc :=
  match h_channel_receive toy rx b 0 [] fails (heap_of (concat [sc_cells rx; buf_cells b])) with Some ((_, t), _) => t | None => rx end.
Definition n_tx1 : hsc := Eval vm_compute in tx_after n_tx c_data never.
Definition n_tx2 : hsc := Eval vm_compute in tx_after n_tx1 second no_packet.
Definition n_tx3 : hsc := Eval vm_compute in tx_after n_tx2 second never.
Definition wire1 : hbuf := Eval vm_compute in at_ 1%nat (pl_buf (wire_of v_new_tx (b_bytes c_data))).
Definition wire2 : hbuf := Eval vm_compute in at_ 1%nat (pl_buf (wire_of (sc_value n_tx2) (b_bytes second))).
Definition n_rx1 : hsc := Eval vm_compute in rx_after n_rx wire1 never.
Definition n_rx2 : hsc := Eval vm_compute in rx_after n_rx1 wire1 never.
Definition n_rx3 : hsc := Eval vm_compute in rx_after n_rx2 wire2 no_packet.
Definition n_rx4 : hsc := Eval vm_compute in rx_after n_rx3 wire2 never.
Definition given (r : (option hbuf * hsc) * heap) : option bytes * hsc := (option_map b_bytes (fst (fst r)), snd (fst r)).
Lemma sent_more tx0 l tx data fails w tx' : channel_sent toy tx0 l tx -> apart [sc_cells tx; buf_cells data] = true ->
  option_map given (h_channel_send toy tx data fails (heap_of (concat [sc_cells tx; buf_cells data]))) = Some (w, tx') ->
  channel_sent toy tx0 (l ++ [(w, b_bytes data)])%list tx'.
Proof.
  intros S D V. destruct (separate_ok _ _ D) as (A1 & A2 & A3 & A4). destruct (h_channel_send toy tx data fails _) as [[[a1 t1] h1]|] eqn:E; [|discriminate V]. unfold given in V. cbn [option_map fst snd] in V. injection V as <- ->.
  exact (sent_next _ _ _ _ _ _ _ _ _ _ S A1 A2 A3 A4 E).
Qed.
Lemma received_more rx0 l rx b fails x rx' : channel_received toy rx0 l rx -> apart [sc_cells rx; buf_cells b] = true ->
  option_map given (h_channel_receive toy rx b 0 [] fails (heap_of (concat [sc_cells rx; buf_cells b]))) = Some (x, rx') ->
  channel_received toy rx0 (l ++ [(b_bytes b, x)])%list rx'.
Proof.
  intros S D V. destruct (separate_ok _ _ D) as (A1 & A2 & A3 & A4). destruct (h_channel_receive toy rx b 0 [] fails _) as [[[a1 t1] h1]|] eqn:E; [|discriminate V]. unfold given in V. cbn [option_map fst snd] in V. injection V as <- ->.
  exact (received_next _ _ _ _ _ _ _ _ _ _ _ _ S A1 A2 A3 A4 E).
Qed.
(* the allocation of a packet fails once on each side; the first packet is presented twice *)
Lemma an_exchange : exists w1 w2,
  channel_sent toy n_tx [(Some w1, b_bytes c_data); (None, b_bytes second); (Some w2, b_bytes second)] n_tx3 /\
  channel_received toy n_rx [(w1, Some (b_bytes c_data)); (w1, None); (w2, None); (w2, Some (b_bytes second))] n_rx4.
Proof.
  exists (b_bytes wire1), (b_bytes wire2). split.
  - assert (S1 : channel_sent toy n_tx [(Some (b_bytes wire1), b_bytes c_data)] n_tx1).
    { eapply (sent_more n_tx [] n_tx c_data never (Some (b_bytes wire1)) n_tx1 (sent_nothing _ _)); vm_compute; reflexivity. }
    assert (S2 : channel_sent toy n_tx [(Some (b_bytes wire1), b_bytes c_data); (None, b_bytes second)] n_tx2).
    { eapply (sent_more n_tx _ n_tx1 second no_packet None n_tx2 S1); vm_compute; reflexivity. }
    eapply (sent_more n_tx _ n_tx2 second never (Some (b_bytes wire2)) n_tx3 S2); vm_compute; reflexivity.
  - assert (S1 : channel_received toy n_rx [(b_bytes wire1, Some (b_bytes c_data))] n_rx1).
    { eapply (received_more n_rx [] n_rx wire1 never (Some (b_bytes c_data)) n_rx1 (received_nothing _ _)); vm_compute; reflexivity. }
    assert (S2 : channel_received toy n_rx [(b_bytes wire1, Some (b_bytes c_data)); (b_bytes wire1, None)] n_rx2).
    { eapply (received_more n_rx _ n_rx1 wire1 never None n_rx2 S1); vm_compute; reflexivity. }
    assert (S3 : channel_received toy n_rx [(b_bytes wire1, Some (b_bytes c_data)); (b_bytes wire1, None); (b_bytes wire2, None)] n_rx3).
    { eapply (received_more n_rx _ n_rx2 wire2 no_packet None n_rx3 S2); vm_compute; reflexivity. }
    eapply (received_more n_rx _ n_rx3 wire2 never (Some (b_bytes second)) n_rx4 S3); vm_compute; reflexivity.
Qed.
(* what goes wrong *)
Lemma C107_send_refuted_ok : change_crashes [buf_cells c_data] (sc_cells c_tx) (h_channel_send toy c_tx c_data).
Proof. refine (change_crashes_by _ _ (fun _ ty => match ty with T_cipher_result => true | _ => false end) _ _ _); vm_compute; reflexivity. Qed.

Lemma C107_send_key_refuted_ok : change_crashes [buf_cells c_data] (sc_cells c_tx) (h_channel_send toy c_tx c_data).
Proof. refine (change_crashes_by _ _ (fun _ ty => match ty with T_cipher_key => true | _ => false end) _ _ _); vm_compute; reflexivity. Qed.

Lemma C107_receive_refuted_ok : change_crashes [buf_cells c_wire] (sc_cells c_rx) (h_channel_receive toy c_rx c_wire 0 []).
Proof. refine (change_crashes_by _ _ (fun _ ty => match ty with T_cipher_result => true | _ => false end) _ _ _); vm_compute; reflexivity. Qed.

Lemma C107_receive_key_refuted_ok : change_crashes [buf_cells c_wire] (sc_cells c_rx) (h_channel_receive toy c_rx c_wire 0 []).
Proof. refine (change_crashes_by _ _ (fun _ ty => match ty with T_cipher_key => true | _ => false end) _ _ _); vm_compute; reflexivity. Qed.
