(* C93-C97: the stream cipher as operations on memory *)
From Verif.Base Require Import Bytes Monad.
From Verif.Model Require Import Buffer Cipher Ecdsa Prims Engine Stream Heap HeapObjects HeapMessages HeapEngine HeapGenerate HeapStream.
From Verif.Spec Require Import HeapSpec HeapObjectSpec CopySpec HeapEngineSpec HeapContextSpec HeapStreamSpec.
From Verif.Proofs Require Import ToyPrims ToyObjects HeapFacts HeapObjectFacts HeapExamples HeapEngineFacts HeapEngineExamples HeapProtocolExamples HeapGenerateExamples HeapContextFacts HeapContextExamples HeapStreamFacts HeapStreamExamples.
Local Open Scope N_scope.

(* --- create *)
Theorem C93_create
  (P : prims) (R : rand_ok P) k d s :
  changes_cleanly [] (st_cells k) (taken sc_cells (st_cells k))
    (makes_ok sc_value (fst (stream_ctx_create P (Some (st_value k)) d s)))
    []
    (h_stream_ctx_create P (Some k) d s).
Proof. exact (change_clean _ _ _ _ _ _ _ _ _ _ (change_sound _ _ _ _ _ _ _ _ _ (stream_ctx_create_rule P R k d s)) (ctx_leak_never d) (makes_never _ _)). Qed.
Print Assumptions C93_create.

Example C93_create_case : changes_as [] (st_cells h_st) made_some
  (h_stream_ctx_create toy (Some h_st) ENCODE 3).
Proof. by_changing. Qed.

Example C93_create_decoder_case : changes_as [] (st_cells h_st) made_some
  (h_stream_ctx_create toy (Some h_st) DECODE 3).
Proof. by_changing. Qed.

Theorem C94_create_partial
  (P : prims) (R : rand_ok P) k d s :
  changes_in_memory [] (st_cells k) (taken sc_cells (st_cells k))
    (makes sc_value (fst (stream_ctx_create P (Some (st_value k)) d s)))
    []
    (stream_seed P d s)
    (ctx_untested d)
    (ctx_leak d)
    (h_stream_ctx_create P (Some k) d s).
Proof. exact (change_sound _ _ _ _ _ _ _ _ _ (stream_ctx_create_rule P R k d s)). Qed.
Print Assumptions C94_create_partial.

Theorem C94_create_decoder
  (P : prims) (R : rand_ok P) k s :
  changes_safely [] (st_cells k) (taken sc_cells (st_cells k))
    (makes sc_value (fst (stream_ctx_create P (Some (st_value k)) DECODE s)))
    []
    (h_stream_ctx_create P (Some k) DECODE s).
Proof. exact (change_strict _ _ _ _ _ _ (change_sound _ _ _ _ _ _ _ _ _ (stream_ctx_create_rule P R k DECODE s))). Qed.
Print Assumptions C94_create_decoder.

Theorem C95_create_partial
  (P : prims) (R : rand_ok P) k d s :
  hides_change [] (st_cells k)
    (stream_seed P d s)
    (h_stream_ctx_create P (Some k) d s).
Proof. exact (change_hides_all _ _ _ _ _ _ _ _ _ (change_sound _ _ _ _ _ _ _ _ _ (stream_ctx_create_rule P R k d s))). Qed.
Print Assumptions C95_create_partial.

(* --- encode *)
Theorem C93_encode
  (P : prims) (R0 : rand_ok P) (R : hmac_ok P) (A : aead_ok P) (C : ctr_ok P) ctx data aad seq
  (MC : usable_stream (sc_value ctx)) (MA : if_set real (option_map b_bytes aad)) :
  changes_cleanly [oc buf_cells data; oc buf_cells aad] (sc_cells ctx) (with_ctx cr_cells)
    (advances_ok cr_value ctx (stream_ctx_encode P (sc_value ctx) (option_map b_bytes data) (option_map b_bytes aad) seq))
    ((user_data (sc_value ctx) ++ next_nonce P (sc_value ctx)))
    (h_stream_ctx_encode P ctx data aad seq).
Proof. exact (change_clean _ _ _ _ _ _ _ _ _ _ (use_sound _ _ _ _ _ _ _ _ _ (stream_encode_rule P R0 R A C ctx data aad seq MC MA)) (fun X => X) (advances_never _ _ _ _)). Qed.
Print Assumptions C93_encode.

Example C93_encode_case : changes_as [buf_cells h_data; buf_cells h_header] (sc_cells h_enc) some_answer
  (h_stream_ctx_encode toy h_enc (Some h_data) (Some h_header) 9).
Proof. by_changing. Qed.

Theorem C94_encode_partial
  (P : prims) (R0 : rand_ok P) (R : hmac_ok P) (A : aead_ok P) (C : ctr_ok P) ctx data aad seq
  (MC : usable_stream (sc_value ctx)) (MA : if_set real (option_map b_bytes aad)) :
  changes_in_memory [oc buf_cells data; oc buf_cells aad] (sc_cells ctx) (with_ctx cr_cells)
    (advances cr_value ctx (stream_ctx_encode P (sc_value ctx) (option_map b_bytes data) (option_map b_bytes aad) seq)
      [sc_value ctx; nonce_spent P (sc_value ctx); snd (stream_ctx_encode P (sc_value ctx) (option_map b_bytes data) (option_map b_bytes aad) seq)])
    (user_data (sc_value ctx) ++ next_nonce P (sc_value ctx))
    []
    [T_cipher_key; T_cipher_result]
    never_leaks_op
    (h_stream_ctx_encode P ctx data aad seq).
Proof. exact (use_sound _ _ _ _ _ _ _ _ _ (stream_encode_rule P R0 R A C ctx data aad seq MC MA)). Qed.
Print Assumptions C94_encode_partial.

Theorem C95_encode
  (P : prims) (R0 : rand_ok P) (R : hmac_ok P) (A : aead_ok P) (C : ctr_ok P) ctx data aad seq
  (MC : usable_stream (sc_value ctx)) (MA : if_set real (option_map b_bytes aad)) :
  hides_change [oc buf_cells data; oc buf_cells aad] (sc_cells ctx)
    (user_data (sc_value ctx) ++ next_nonce P (sc_value ctx))
    (h_stream_ctx_encode P ctx data aad seq).
Proof. exact (change_hides _ _ _ _ _ _ _ _ (use_sound _ _ _ _ _ _ _ _ _ (stream_encode_rule P R0 R A C ctx data aad seq MC MA))). Qed.
Print Assumptions C95_encode.

(* --- decode *)
Theorem C93_decode
  (P : prims) (R : hmac_ok P) (A : aead_len_ok P) (C : ctr_ok P) ctx data aad seq draft
  (MC : usable_stream (sc_value ctx)) (MD : if_set made_cipher_result (option_map cr_value data)) :
  changes_cleanly [oc cr_cells data; oc buf_cells aad] (sc_cells ctx) (with_ctx buf_cells)
    (advances_ok b_bytes ctx (stream_ctx_decode P (sc_value ctx) (option_map cr_value data) (option_map b_bytes aad) seq))
    ((user_data (sc_value ctx)))
    (h_stream_ctx_decode P ctx data aad seq draft).
Proof. exact (change_clean _ _ _ _ _ _ _ _ _ _ (use_sound _ _ _ _ _ _ _ _ _ (stream_decode_rule P R A C ctx data aad seq draft (proj1 MC) MD)) (fun X => X) (advances_never _ _ _ _)). Qed.
Print Assumptions C93_decode.

Example C93_decode_case : changes_as [cr_cells h_packet_9; buf_cells h_header] (sc_cells h_dec) some_answer
  (h_stream_ctx_decode toy h_dec (Some h_packet_9) (Some h_header) 9 []).
Proof. by_changing. Qed.

Theorem C94_decode_partial
  (P : prims) (R : hmac_ok P) (A : aead_len_ok P) (C : ctr_ok P) ctx data aad seq draft
  (MC : usable_stream (sc_value ctx)) (MD : if_set made_cipher_result (option_map cr_value data)) :
  changes_in_memory [oc cr_cells data; oc buf_cells aad] (sc_cells ctx) (with_ctx buf_cells)
    (advances b_bytes ctx (stream_ctx_decode P (sc_value ctx) (option_map cr_value data) (option_map b_bytes aad) seq)
      [sc_value ctx; snd (stream_ctx_decode P (sc_value ctx) (option_map cr_value data) (option_map b_bytes aad) seq)])
    (user_data (sc_value ctx))
    []
    [T_cipher_key]
    never_leaks_op
    (h_stream_ctx_decode P ctx data aad seq draft).
Proof. exact (use_sound _ _ _ _ _ _ _ _ _ (stream_decode_rule P R A C ctx data aad seq draft (proj1 MC) MD)). Qed.
Print Assumptions C94_decode_partial.

Theorem C95_decode
  (P : prims) (R : hmac_ok P) (A : aead_len_ok P) (C : ctr_ok P) ctx data aad seq draft
  (MC : usable_stream (sc_value ctx)) (MD : if_set made_cipher_result (option_map cr_value data)) :
  hides_change [oc cr_cells data; oc buf_cells aad] (sc_cells ctx)
    (user_data (sc_value ctx))
    (h_stream_ctx_decode P ctx data aad seq draft).
Proof. exact (change_hides _ _ _ _ _ _ _ _ (use_sound _ _ _ _ _ _ _ _ _ (stream_decode_rule P R A C ctx data aad seq draft (proj1 MC) MD))). Qed.
Print Assumptions C95_decode.

(* --- encode_session *)
Theorem C93_encode_session
  (P : prims) (R0 : rand_ok P) (R : hmac_ok P) (A : aead_ok P) (C : ctr_ok P) ctx calls
  (MC : usable_stream (sc_value ctx)) (MA : Forall encode_call_ok calls) :
  changes_cleanly (encode_args calls) (sc_cells ctx) (with_ctxs cr_cells)
    (encode_session_ok P ctx calls)
    ((user_data (sc_value ctx) ++ first_nonces P (sc_value ctx) (length calls)))
    (encode_session P ctx calls).
Proof. exact (change_clean _ _ _ _ _ _ _ _ _ _ (use_sound _ _ _ _ _ _ _ _ _ (encode_session_rule P R0 R A C calls ctx MC MA)) (fun X => X) (encode_session_never P _ _)). Qed.
Print Assumptions C93_encode_session.

Example C93_encode_session_case : changes_as (encode_args enc_calls) (sc_cells h_enc) (answers_are [true; false; false])
  (encode_session toy h_enc enc_calls).
Proof. by_changing. Qed.

Theorem C94_encode_session_partial
  (P : prims) (R0 : rand_ok P) (R : hmac_ok P) (A : aead_ok P) (C : ctr_ok P) ctx calls
  (MC : usable_stream (sc_value ctx)) (MA : Forall encode_call_ok calls) :
  changes_in_memory (encode_args calls) (sc_cells ctx) (with_ctxs cr_cells)
    (encode_session_right P ctx calls)
    (user_data (sc_value ctx) ++ first_nonces P (sc_value ctx) (length calls))
    []
    [T_cipher_key; T_cipher_result]
    never_leaks_op
    (encode_session P ctx calls).
Proof. exact (use_sound _ _ _ _ _ _ _ _ _ (encode_session_rule P R0 R A C calls ctx MC MA)). Qed.
Print Assumptions C94_encode_session_partial.

Theorem C95_encode_session
  (P : prims) (R0 : rand_ok P) (R : hmac_ok P) (A : aead_ok P) (C : ctr_ok P) ctx calls
  (MC : usable_stream (sc_value ctx)) (MA : Forall encode_call_ok calls) :
  hides_change (encode_args calls) (sc_cells ctx)
    (user_data (sc_value ctx) ++ first_nonces P (sc_value ctx) (length calls))
    (encode_session P ctx calls).
Proof. exact (change_hides _ _ _ _ _ _ _ _ (use_sound _ _ _ _ _ _ _ _ _ (encode_session_rule P R0 R A C calls ctx MC MA))). Qed.
Print Assumptions C95_encode_session.

(* --- decode_session *)
Theorem C93_decode_session
  (P : prims) (R : hmac_ok P) (A : aead_len_ok P) (C : ctr_ok P) ctx calls
  (MC : usable_stream (sc_value ctx)) (MA : Forall decode_call_ok calls) :
  changes_cleanly (decode_args calls) (sc_cells ctx) (with_ctxs buf_cells)
    (decode_session_ok P ctx calls)
    ((user_data (sc_value ctx)))
    (decode_session P ctx calls).
Proof. exact (change_clean _ _ _ _ _ _ _ _ _ _ (use_sound _ _ _ _ _ _ _ _ _ (decode_session_rule P R A C calls ctx MC MA)) (fun X => X) (decode_session_never P _ _)). Qed.
Print Assumptions C93_decode_session.

Example C93_decode_session_case : changes_as (decode_args dec_calls) (sc_cells h_dec) (answers_are [true; true])
  (decode_session toy h_dec dec_calls).
Proof. by_changing. Qed.

Theorem C94_decode_session_partial
  (P : prims) (R : hmac_ok P) (A : aead_len_ok P) (C : ctr_ok P) ctx calls
  (MC : usable_stream (sc_value ctx)) (MA : Forall decode_call_ok calls) :
  changes_in_memory (decode_args calls) (sc_cells ctx) (with_ctxs buf_cells)
    (decode_session_right P ctx calls)
    (user_data (sc_value ctx))
    []
    [T_cipher_key]
    never_leaks_op
    (decode_session P ctx calls).
Proof. exact (use_sound _ _ _ _ _ _ _ _ _ (decode_session_rule P R A C calls ctx MC MA)). Qed.
Print Assumptions C94_decode_session_partial.

Theorem C95_decode_session
  (P : prims) (R : hmac_ok P) (A : aead_len_ok P) (C : ctr_ok P) ctx calls
  (MC : usable_stream (sc_value ctx)) (MA : Forall decode_call_ok calls) :
  hides_change (decode_args calls) (sc_cells ctx)
    (user_data (sc_value ctx))
    (decode_session P ctx calls).
Proof. exact (change_hides _ _ _ _ _ _ _ _ (use_sound _ _ _ _ _ _ _ _ _ (decode_session_rule P R A C calls ctx MC MA))). Qed.
Print Assumptions C95_decode_session.

Theorem C96_nonces_in_order
  (P : prims) (R0 : rand_ok P) (R : hmac_ok P) (A : aead_ok P) (C : ctr_ok P) ctx calls fails h answers ctx' h' :
  usable_stream (sc_value ctx) -> Forall encode_call_ok calls -> heap_ok h -> in_memory h (sc_cells ctx) ->
  all_in_memory h (encode_args calls) -> separate (encode_args calls) (sc_cells ctx) ->
  encode_session P ctx calls fails h = Some ((answers, ctx'), h') ->
  forall g, sc_iv (sc_value ctx) = Some g -> nonces_from (nonce_at P g) 0 (map (option_map cr_value) answers).
Proof. exact (session_nonces P R0 R A C ctx calls fails h answers ctx' h'). Qed.
Print Assumptions C96_nonces_in_order.

Theorem C96_no_nonce_repeats
  (P : prims) (R0 : rand_ok P) (R : hmac_ok P) (A : aead_ok P) (C : ctr_ok P) ctx calls fails h answers ctx' h' g :
  usable_stream (sc_value ctx) -> Forall encode_call_ok calls -> heap_ok h -> in_memory h (sc_cells ctx) ->
  all_in_memory h (encode_args calls) -> separate (encode_args calls) (sc_cells ctx) ->
  encode_session P ctx calls fails h = Some ((answers, ctx'), h') ->
  sc_iv (sc_value ctx) = Some g ->
  (forall i j v, (i < length calls)%nat -> (j < length calls)%nat -> nonce_at P g i = Some v -> nonce_at P g j = Some v -> i = j) ->
  NoDup (used_nonces (map (option_map cr_value) answers)).
Proof. exact (session_no_repeats P R0 R A C ctx calls fails h answers ctx' h' g). Qed.
Print Assumptions C96_no_nonce_repeats.

Theorem C97_encode_numbers_rise
  (P : prims) (R0 : rand_ok P) (R : hmac_ok P) (A : aead_ok P) (C : ctr_ok P) ctx calls fails h answers ctx' h' :
  usable_stream (sc_value ctx) -> Forall encode_call_ok calls -> heap_ok h -> in_memory h (sc_cells ctx) ->
  all_in_memory h (encode_args calls) -> separate (encode_args calls) (sc_cells ctx) ->
  encode_session P ctx calls fails h = Some ((answers, ctx'), h') ->
  rising (hsc_last ctx) (numbered (encode_numbers calls) answers).
Proof. exact (session_encode_rises P R0 R A C ctx calls fails h answers ctx' h'). Qed.
Print Assumptions C97_encode_numbers_rise.

Theorem C97_decode_numbers_rise
  (P : prims) (R : hmac_ok P) (A : aead_len_ok P) (C : ctr_ok P) ctx calls fails h answers ctx' h' :
  usable_stream (sc_value ctx) -> Forall decode_call_ok calls -> heap_ok h -> in_memory h (sc_cells ctx) ->
  all_in_memory h (decode_args calls) -> separate (decode_args calls) (sc_cells ctx) ->
  decode_session P ctx calls fails h = Some ((answers, ctx'), h') ->
  rising (hsc_last ctx) (numbered (decode_numbers calls) answers).
Proof. exact (session_decode_rises P R A C ctx calls fails h answers ctx' h'). Qed.
Print Assumptions C97_decode_numbers_rise.

(* --- the conditions of the theorems hold of the cases above *)
Example C93_laws : rand_ok toy /\ hmac_ok toy /\ aead_ok toy /\ aead_len_ok toy /\ ctr_ok toy.
Proof. exact toy_stream_laws. Qed.
Example C93_streams : usable_stream (sc_value h_enc) /\ usable_stream (sc_value h_dec) /\ Forall encode_call_ok enc_calls /\ Forall decode_call_ok dec_calls.
Proof. exact (conj usable_sender (conj usable_receiver (conj enc_calls_ok dec_calls_ok))). Qed.
(* a session in which the allocation of one packet fails: its nonce is not used again *)
Example C96_failing_case : exists fails h answers ctx' h', some_failure fails /\ heap_ok h /\ in_memory h (sc_cells h_enc) /\ all_in_memory h (encode_args busy_calls) /\ separate (encode_args busy_calls) (sc_cells h_enc) /\
  encode_session toy h_enc busy_calls fails h = Some ((answers, ctx'), h') /\ map made_some answers = [true; false; true] /\ length (used_nonces (map (option_map cr_value) answers)) = 2%nat.
Proof. exact busy_session. Qed.
Example C96_distinct_case : forall g, sc_iv (sc_value h_enc) = Some g -> forall i j v, (i < length busy_calls)%nat -> (j < length busy_calls)%nat ->
  nonce_at toy g i = Some v -> nonce_at toy g j = Some v -> i = j.
Proof. exact busy_nonces. Qed.
Example C97_replay_case : changes_as (decode_args replay_calls) (sc_cells h_dec) (answers_are [true; false; true; false]) (decode_session toy h_dec replay_calls).
Proof. by_changing. Qed.

(* --- what goes wrong *)
Theorem C94_create_refuted :
  change_crashes [] (st_cells h_st)
    (h_stream_ctx_create toy (Some h_st) ENCODE 3).
Proof. exact C94_create_refuted_ok. Qed.
Print Assumptions C94_create_refuted.

Theorem C94_encode_refuted :
  change_crashes [buf_cells h_data; buf_cells h_header] (sc_cells h_enc)
    (h_stream_ctx_encode toy h_enc (Some h_data) (Some h_header) 9).
Proof. exact C94_encode_refuted_ok. Qed.
Print Assumptions C94_encode_refuted.

Theorem C94_encode_key_refuted :
  change_crashes [buf_cells h_data; buf_cells h_header] (sc_cells h_enc)
    (h_stream_ctx_encode toy h_enc (Some h_data) (Some h_header) 9).
Proof. exact C94_encode_key_refuted_ok. Qed.
Print Assumptions C94_encode_key_refuted.

Theorem C94_decode_refuted :
  change_crashes [cr_cells h_packet_9; buf_cells h_header] (sc_cells h_dec)
    (h_stream_ctx_decode toy h_dec (Some h_packet_9) (Some h_header) 9 []).
Proof. exact C94_decode_refuted_ok. Qed.
Print Assumptions C94_decode_refuted.

Theorem C94_encode_session_refuted :
  change_crashes (encode_args enc_calls) (sc_cells h_enc)
    (encode_session toy h_enc enc_calls).
Proof. exact C94_encode_session_refuted_ok. Qed.
Print Assumptions C94_encode_session_refuted.

Theorem C94_decode_session_refuted :
  change_crashes (decode_args dec_calls) (sc_cells h_dec)
    (decode_session toy h_dec dec_calls).
Proof. exact C94_decode_session_refuted_ok. Qed.
Print Assumptions C94_decode_session_refuted.

Theorem C94_create_leaks_refuted :
  exists fails, change_leaves [] (st_cells h_st) (taken sc_cells (st_cells h_st)) fails v_stream_seed
    (h_stream_ctx_create toy (Some h_st) ENCODE 3).
Proof. exact C94_create_leaks_refuted_ok. Qed.
Print Assumptions C94_create_leaks_refuted.

Theorem C95_create_refuted :
  exists fails, change_exposes [] (st_cells h_st) fails v_stream_seed
    (h_stream_ctx_create toy (Some h_st) ENCODE 3).
Proof. exact C95_create_refuted_ok. Qed.
Print Assumptions C95_create_refuted.

Theorem C95_user_data_refuted :
  change_exposes [cr_cells h_packet_9; buf_cells h_header] (sc_cells h_dec) never v_user
    (h_stream_ctx_decode toy h_dec (Some h_packet_9) (Some h_header) 9 []).
Proof. exact C95_user_data_refuted_ok. Qed.
Print Assumptions C95_user_data_refuted.
