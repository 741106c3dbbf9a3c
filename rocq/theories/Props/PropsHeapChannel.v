(* C106-C109: sending and receiving data over an active transport as operations on memory *)
From Verif.Base Require Import Bytes Monad.
From Verif.Model Require Import Buffer Cipher Prims Engine Stream TransportPacket Transport Heap HeapObjects HeapMessages HeapEngine HeapStream HeapChannel.
From Verif.Spec Require Import HeapSpec HeapObjectSpec CopySpec HeapEngineSpec HeapContextSpec HeapStreamSpec HeapChannelSpec.
From Verif.Proofs Require Import ToyPrims ToyObjects HeapFacts HeapObjectFacts HeapExamples HeapEngineFacts HeapEngineExamples HeapProtocolExamples HeapContextFacts HeapContextExamples HeapStreamFacts HeapStreamExamples HeapChannelFacts HeapChannelExamples.
Local Open Scope N_scope.

(* --- send *)
Theorem C106_send
  (P : prims) (R0 : rand_ok P) (R : hmac_ok P) (A : aead_ok P) (C : ctr_ok P) tx data
  (MC : usable_stream (sc_value tx)) :
  changes_cleanly [buf_cells data] (sc_cells tx) (with_ctx buf_cells)
    (send_ok P tx (b_bytes data))
    (send_public P (sc_value tx) (b_bytes data))
    (h_channel_send P tx data).
Proof. exact (change_clean _ _ _ _ _ _ _ _ _ _ (use_sound _ _ _ _ _ _ _ _ _ (channel_send_rule P R0 R A C tx data MC)) (fun F : never_leaks_op never => F) (advances_never _ _ _ _)). Qed.
Print Assumptions C106_send.

Theorem C107_send_partial
  (P : prims) (R0 : rand_ok P) (R : hmac_ok P) (A : aead_ok P) (C : ctr_ok P) tx data
  (MC : usable_stream (sc_value tx)) :
  changes_in_memory [buf_cells data] (sc_cells tx) (with_ctx buf_cells)
    (send_right P tx (b_bytes data))
    (send_public P (sc_value tx) (b_bytes data)) []
    send_kinds never_leaks_op
    (h_channel_send P tx data).
Proof. exact (use_sound _ _ _ _ _ _ _ _ _ (channel_send_rule P R0 R A C tx data MC)). Qed.
Print Assumptions C107_send_partial.

Theorem C108_send
  (P : prims) (R0 : rand_ok P) (R : hmac_ok P) (A : aead_ok P) (C : ctr_ok P) tx data
  (MC : usable_stream (sc_value tx)) :
  hides_change [buf_cells data] (sc_cells tx)
    (send_public P (sc_value tx) (b_bytes data))
    (h_channel_send P tx data).
Proof. exact (change_hides _ _ _ _ _ _ _ _ (use_sound _ _ _ _ _ _ _ _ _ (channel_send_rule P R0 R A C tx data MC))). Qed.
Print Assumptions C108_send.

(* --- receive *)
Theorem C106_receive
  (P : prims) (R : hmac_ok P) (A : aead_len_ok P) (C : ctr_ok P) rx b pad draft
  (MC : usable_stream (sc_value rx)) :
  changes_cleanly [buf_cells b] (sc_cells rx) (with_ctx buf_cells)
    (receive_ok P rx (b_bytes b) pad)
    (receive_public (sc_value rx) (b_bytes b))
    (h_channel_receive P rx b pad draft).
Proof. exact (change_clean _ _ _ _ _ _ _ _ _ _ (use_sound _ _ _ _ _ _ _ _ _ (channel_receive_rule P R A C rx b pad draft (proj1 MC))) (fun F : never_leaks_op never => F) (advances_never _ _ _ _)). Qed.
Print Assumptions C106_receive.

Theorem C107_receive_partial
  (P : prims) (R : hmac_ok P) (A : aead_len_ok P) (C : ctr_ok P) rx b pad draft
  (MC : usable_stream (sc_value rx)) :
  changes_in_memory [buf_cells b] (sc_cells rx) (with_ctx buf_cells)
    (receive_right P rx (b_bytes b) pad)
    (receive_public (sc_value rx) (b_bytes b)) []
    receive_kinds never_leaks_op
    (h_channel_receive P rx b pad draft).
Proof. exact (use_sound _ _ _ _ _ _ _ _ _ (channel_receive_rule P R A C rx b pad draft (proj1 MC))). Qed.
Print Assumptions C107_receive_partial.

Theorem C108_receive
  (P : prims) (R : hmac_ok P) (A : aead_len_ok P) (C : ctr_ok P) rx b pad draft
  (MC : usable_stream (sc_value rx)) :
  hides_change [buf_cells b] (sc_cells rx)
    (receive_public (sc_value rx) (b_bytes b))
    (h_channel_receive P rx b pad draft).
Proof. exact (change_hides _ _ _ _ _ _ _ _ (use_sound _ _ _ _ _ _ _ _ _ (channel_receive_rule P R A C rx b pad draft (proj1 MC)))). Qed.
Print Assumptions C108_receive.

(* --- a whole exchange *)
Theorem C109_delivered
  (P : prims) (R0 : rand_ok P) (R : hmac_ok P) (A : aead_ok P) (AL : aead_len_ok P) (C : ctr_ok P) k tx0 sent tx rx0 got rx :
  new_stream k ENCODE (sc_value tx0) -> new_stream k DECODE (sc_value rx0) ->
  channel_sent P tx0 sent tx -> channel_received P rx0 got rx ->
  forall w d x, In (Some w, d) sent -> In (w, Some x) got -> x = d.
Proof. exact (exchange_delivers P R0 R A AL C k tx0 sent tx rx0 got rx). Qed.
Print Assumptions C109_delivered.

Theorem C109_in_order
  (P : prims) (R0 : rand_ok P) (R : hmac_ok P) (A : aead_ok P) (AL : aead_len_ok P) (C : ctr_ok P) k tx0 sent tx rx0 got rx :
  new_stream k ENCODE (sc_value tx0) -> new_stream k DECODE (sc_value rx0) ->
  channel_sent P tx0 sent tx -> channel_received P rx0 got rx ->
  forall a b v w d e i j x y, nth_error sent a = Some (Some v, d) -> nth_error sent b = Some (Some w, e) ->
    nth_error got i = Some (v, Some x) -> nth_error got j = Some (w, Some y) -> (i < j)%nat -> (a < b)%nat.
Proof. exact (exchange_in_order P R0 R A AL C k tx0 sent tx rx0 got rx). Qed.
Print Assumptions C109_in_order.

(* --- the conditions of the theorems hold of these cases *)
Example C106_laws : rand_ok toy /\ hmac_ok toy /\ aead_ok toy /\ aead_len_ok toy /\ ctr_ok toy.
Proof. exact toy_stream_laws. Qed.
Example C106_streams : usable_stream (sc_value c_tx) /\ usable_stream (sc_value c_rx).
Proof. exact usable_c. Qed.
(* a packet is sent, and received by the peer *)
Example C106_send_case : changes_as [buf_cells c_data] (sc_cells c_tx) some_answer (h_channel_send toy c_tx c_data).
Proof. by_changing. Qed.
Example C106_receive_case : changes_as [buf_cells c_wire] (sc_cells c_rx) some_answer (h_channel_receive toy c_rx c_wire 0 []).
Proof. by_changing. Qed.
(* not with another byte in it, and not if it claims to be unprotected *)
Example C106_altered_case : changes_as [buf_cells c_altered] (sc_cells c_rx) (fun a => negb (some_answer a)) (h_channel_receive toy c_rx c_altered 0 []).
Proof. by_changing. Qed.
Example C106_plain_case : changes_as [buf_cells c_plain] (sc_cells c_rx) (fun a => negb (some_answer a)) (h_channel_receive toy c_rx c_plain 0 []).
Proof. by_changing. Qed.
(* allocations fail on both sides and a packet is presented twice *)
Example C109_streams : new_stream v_sk ENCODE (sc_value n_tx) /\ new_stream v_sk DECODE (sc_value n_rx).
Proof. exact new_streams. Qed.
Example C109_case : exists w1 w2,
  channel_sent toy n_tx [(Some w1, b_bytes c_data); (None, b_bytes second); (Some w2, b_bytes second)] n_tx3 /\
  channel_received toy n_rx [(w1, Some (b_bytes c_data)); (w1, None); (w2, None); (w2, Some (b_bytes second))] n_rx4.
Proof. exact an_exchange. Qed.
(* --- what goes wrong *)
Theorem C107_send_refuted :
  change_crashes [buf_cells c_data] (sc_cells c_tx) (h_channel_send toy c_tx c_data).
Proof. exact C107_send_refuted_ok. Qed.
Print Assumptions C107_send_refuted.

Theorem C107_send_key_refuted :
  change_crashes [buf_cells c_data] (sc_cells c_tx) (h_channel_send toy c_tx c_data).
Proof. exact C107_send_key_refuted_ok. Qed.
Print Assumptions C107_send_key_refuted.

Theorem C107_receive_refuted :
  change_crashes [buf_cells c_wire] (sc_cells c_rx) (h_channel_receive toy c_rx c_wire 0 []).
Proof. exact C107_receive_refuted_ok. Qed.
Print Assumptions C107_receive_refuted.

Theorem C107_receive_key_refuted :
  change_crashes [buf_cells c_wire] (sc_cells c_rx) (h_channel_receive toy c_rx c_wire 0 []).
Proof. exact C107_receive_key_refuted_ok. Qed.
Print Assumptions C107_receive_key_refuted.
