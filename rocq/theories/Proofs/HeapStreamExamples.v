(* Concrete arguments for the theorems of Props/PropsHeapStream.v, and what goes wrong with some. *)
From Verif.Base Require Import Bytes Monad.
From Verif.Model Require Import Buffer Cipher Ecdsa Prims Engine Stream Heap HeapObjects HeapMessages HeapEngine HeapGenerate HeapStream.
From Verif.Spec Require Import HeapSpec HeapObjectSpec CopySpec HeapEngineSpec HeapContextSpec HeapStreamSpec.
From Verif.Proofs Require Import ToyPrims ToyObjects BytesFacts HeapFacts HeapObjectFacts HeapExamples HeapEngineFacts HeapEngineExamples HeapProtocolExamples HeapGenerateExamples HeapContextExamples.
Local Open Scope N_scope.

Definition pl_st (k : stream_key) : placed hst :=
  a <-@ fresh ;; c <-@ pl_ck (sk_cipher k) ;; e <-@ pl_buf (sk_evo k) ;; u <-@ pl_opt pl_buf (sk_user k) ;;
  pret {| hst_addr := a; hst_cipher := c; hst_evo := e; hst_ppe := sk_ppe k; hst_user := u |}.
Definition pl_si (g : stream_iv) : placed hsi :=
  a <-@ fresh ;; s <-@ pl_buf (si_seed g) ;; pret {| hsi_addr := a; hsi_cipher := si_cipher g; hsi_seed := s; hsi_count := si_count g |}.
Definition pl_sc (c : stream_ctx) : placed hsc :=
  a <-@ fresh ;; k <-@ pl_st (sc_key c) ;; g <-@ pl_opt pl_si (sc_iv c) ;;
  pret {| hsc_addr := a; hsc_key := k; hsc_last := sc_last c; hsc_dir := sc_dir c; hsc_iv := g |}.
(* a stream whose key evolves every four packets, after three packets *)
Definition v_user : bytes := [x75; x73; x65; x72].
Definition v_sk : stream_key := {| sk_cipher := {| ck_cipher := AES256_GCM; ck_data := repeat x21 32 |}; sk_evo := repeat x22 32; sk_ppe := 4; sk_user := Some v_user |}.
Definition v_sender_stream : stream_ctx := {| sc_key := v_sk; sc_last := 3; sc_dir := ENCODE; sc_iv := Some {| si_cipher := AES256_GCM; si_seed := repeat x23 64; si_count := 4 |}; sc_refs := 1 |}.
Definition v_receiver_stream : stream_ctx := {| sc_key := v_sk; sc_last := 3; sc_dir := DECODE; sc_iv := None; sc_refs := 1 |}.
Definition h_st : hst := Eval vm_compute in at_ 700%nat (pl_st v_sk).
Definition h_enc : hsc := Eval vm_compute in at_ 700%nat (pl_sc v_sender_stream).
Definition h_dec : hsc := Eval vm_compute in at_ 700%nat (pl_sc v_receiver_stream).
Definition h_data : hbuf := Eval vm_compute in at_ 720%nat (pl_buf [x68; x65; x6c; x6c; x6f]).
Definition h_header : hbuf := Eval vm_compute in at_ 722%nat (pl_buf [x68; x64; x72]).
Definition v_packet_9 : cipher_result := Eval vm_compute in match fst (stream_ctx_encode toy v_sender_stream (Some (b_bytes h_data)) (Some (b_bytes h_header)) 9) with Val c => c | _ => no_text end.
Definition h_packet_9 : hcr := Eval vm_compute in at_ 730%nat (pl_cr v_packet_9).
Definition v_packet_4 : cipher_result := Eval vm_compute in match fst (stream_ctx_encode toy v_sender_stream (Some (b_bytes h_data)) None 4) with Val c => c | _ => no_text end.
Definition h_packet_4 : hcr := Eval vm_compute in at_ 740%nat (pl_cr v_packet_4).
(* a number that goes down in between, and a replayed packet *)
Definition h_more : hbuf := Eval vm_compute in at_ 724%nat (pl_buf [x62; x79; x65]).
Definition enc_calls : list encode_call := [(Some h_data, Some h_header, 4); (Some h_more, None, 2); (None, None, 30)].
Definition dec_calls : list decode_call := [(Some h_packet_4, None, 4, []); (Some h_packet_9, Some h_header, 9, [])].
Definition v_stream_seed : bytes := Eval vm_compute in oval [] (p_rand toy 3 64%N).
Definition v_evolved : bytes := Eval vm_compute in match evolve_turn toy v_sk with Some k => ck_data (sk_cipher k) | None => [] end.
Definition some_answer {T} (a : option T * hsc) : bool := made_some (fst a).
Definition answers_are {T} (l : list bool) (a : list (option T) * hsc) : bool :=
  Nat.eqb (length (fst a)) (length l) && forallb (fun x => Bool.eqb (fst x) (snd x)) (combine l (map made_some (fst a))).
Lemma usable_sender : usable_stream (sc_value h_enc).
Proof. split; [split; [|split]|]; [closed|intros x E; vm_compute in E; injection E as <-; closed|discriminate|intros g E; vm_compute in E; injection E as <-; reflexivity]. Qed.
Lemma usable_receiver : usable_stream (sc_value h_dec).
Proof. split; [split; [|split]|]; [closed|intros x E; discriminate E|discriminate|intros g E; discriminate E]. Qed.
Lemma enc_calls_ok : Forall encode_call_ok enc_calls.
Proof. repeat apply Forall_cons; try apply Forall_nil; intros x E; vm_compute in E; try discriminate E; injection E as <-; closed. Qed.
Lemma dec_calls_ok : Forall decode_call_ok dec_calls.
Proof. repeat apply Forall_cons; try apply Forall_nil; intros x E; vm_compute in E; try discriminate E; injection E as <-; closed. Qed.
Lemma toy_stream_laws : rand_ok toy /\ hmac_ok toy /\ aead_ok toy /\ aead_len_ok toy /\ ctr_ok toy.
Proof. repeat apply conj; [exact toy_rand|exact toy_hmac|exact toy_aead|exact toy_aead_len|exact toy_ctr]. Qed.
Definition h_last_words : hbuf := Eval vm_compute in at_ 726%nat (pl_buf [x65; x6e; x64]).
Definition busy_calls : list encode_call := [(Some h_data, Some h_header, 4); (Some h_more, None, 9); (Some h_last_words, None, 20)].
(* the packets numbered 4 and 9, each presented twice *)
Definition h_packet_4' : hcr := Eval vm_compute in at_ 750%nat (pl_cr v_packet_4).
Definition h_packet_9' : hcr := Eval vm_compute in at_ 760%nat (pl_cr v_packet_9).
Definition h_header' : hbuf := Eval vm_compute in at_ 728%nat (pl_buf [x68; x64; x72]).
Definition replay_calls : list decode_call := [(Some h_packet_4, None, 4, []); (Some h_packet_4', None, 4, []); (Some h_packet_9, Some h_header, 9, []); (Some h_packet_9', Some h_header', 9, [])].
Lemma busy_session : exists fails h answers ctx' h', some_failure fails /\ heap_ok h /\ in_memory h (sc_cells h_enc) /\ all_in_memory h (encode_args busy_calls) /\ separate (encode_args busy_calls) (sc_cells h_enc) /\
  encode_session toy h_enc busy_calls fails h = Some ((answers, ctx'), h') /\ map made_some answers = [true; false; true] /\ length (used_nonces (map (option_map cr_value) answers)) = 2%nat.
Proof.
  assert (D : apart (sc_cells h_enc :: encode_args busy_calls) = true) by (vm_compute; reflexivity).
  destruct (separate_ok _ _ D) as (A1 & A2 & A3 & A4).
  assert (F : match encode_session toy h_enc busy_calls (only 772) (heap_of (concat (sc_cells h_enc :: encode_args busy_calls))) with
    | Some ((l, _), _) => map made_some l = [true; false; true] /\ length (used_nonces (map (option_map cr_value) l)) = 2%nat | None => False end)
    by (vm_compute; split; reflexivity).
  destruct (encode_session toy h_enc busy_calls (only 772) _) as [[[l c] h']|] eqn:E; [|destruct F].
  exists (only 772), (heap_of (concat (sc_cells h_enc :: encode_args busy_calls))), l, c, h'.
  split; [exists 772%nat, T_buffer; reflexivity|]. repeat (split; [assumption|]). exact F.
Qed.
Lemma busy_nonces : forall g, sc_iv (sc_value h_enc) = Some g -> forall i j v, (i < length busy_calls)%nat -> (j < length busy_calls)%nat ->
  nonce_at toy g i = Some v -> nonce_at toy g j = Some v -> i = j.
Proof.
  intros g E. injection E as <-. intros i j v I J.
  assert (i = 0 \/ i = 1 \/ i = 2)%nat as [-> | [-> | ->]] by (cbn in I; lia);
  (assert (j = 0 \/ j = 1 \/ j = 2)%nat as [-> | [-> | ->]] by (cbn in J; lia)); vm_compute; intros A B; try reflexivity; rewrite <- A in B; discriminate B.
Qed.
(* what goes wrong *)
Lemma C94_create_refuted_ok : change_crashes [] (st_cells h_st)
    (h_stream_ctx_create toy (Some h_st) ENCODE 3).
Proof. refine (change_crashes_by _ _ (fun _ ty => match ty with T_buffer => true | _ => false end) _ _ _); vm_compute; reflexivity. Qed.

Lemma C94_encode_refuted_ok : change_crashes [buf_cells h_data; buf_cells h_header] (sc_cells h_enc)
    (h_stream_ctx_encode toy h_enc (Some h_data) (Some h_header) 9).
Proof. refine (change_crashes_by _ _ (fun _ ty => match ty with T_cipher_result => true | _ => false end) _ _ _); vm_compute; reflexivity. Qed.

Lemma C94_encode_key_refuted_ok : change_crashes [buf_cells h_data; buf_cells h_header] (sc_cells h_enc)
    (h_stream_ctx_encode toy h_enc (Some h_data) (Some h_header) 9).
Proof. refine (change_crashes_by _ _ (fun _ ty => match ty with T_cipher_key => true | _ => false end) _ _ _); vm_compute; reflexivity. Qed.

Lemma C94_decode_refuted_ok : change_crashes [cr_cells h_packet_9; buf_cells h_header] (sc_cells h_dec)
    (h_stream_ctx_decode toy h_dec (Some h_packet_9) (Some h_header) 9 []).
Proof. refine (change_crashes_by _ _ (fun _ ty => match ty with T_cipher_key => true | _ => false end) _ _ _); vm_compute; reflexivity. Qed.

Lemma C94_encode_session_refuted_ok : change_crashes (encode_args enc_calls) (sc_cells h_enc)
    (encode_session toy h_enc enc_calls).
Proof. refine (change_crashes_by _ _ (fun _ ty => match ty with T_cipher_result => true | _ => false end) _ _ _); vm_compute; reflexivity. Qed.

Lemma C94_decode_session_refuted_ok : change_crashes (decode_args dec_calls) (sc_cells h_dec)
    (decode_session toy h_dec dec_calls).
Proof. refine (change_crashes_by _ _ (fun _ ty => match ty with T_cipher_key => true | _ => false end) _ _ _); vm_compute; reflexivity. Qed.

Lemma C94_create_leaks_refuted_ok : exists fails, change_leaves [] (st_cells h_st) (taken sc_cells (st_cells h_st)) fails v_stream_seed
    (h_stream_ctx_create toy (Some h_st) ENCODE 3).
Proof. exists (fun _ ty => match ty with T_stream_ctx => true | _ => false end). apply change_leaves_by; vm_compute; reflexivity. Qed.

Lemma C95_create_refuted_ok : exists fails, change_exposes [] (st_cells h_st) fails v_stream_seed
    (h_stream_ctx_create toy (Some h_st) ENCODE 3).
Proof. exists (fun _ ty => match ty with T_stream_iv => true | _ => false end). apply change_exposes_by; vm_compute; reflexivity. Qed.

Lemma C95_user_data_refuted_ok : change_exposes [cr_cells h_packet_9; buf_cells h_header] (sc_cells h_dec) never v_user
    (h_stream_ctx_decode toy h_dec (Some h_packet_9) (Some h_header) 9 []).
Proof. apply change_exposes_by; vm_compute; reflexivity. Qed.
