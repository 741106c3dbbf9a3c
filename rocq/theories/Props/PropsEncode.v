(* C62: encoding a packet never misuses memory *)
From Verif.Base Require Import Bytes Monad.
From Verif.Model Require Import Buffer Cipher Ecdsa Prims Engine Proto Identity Node Payload Exchange Packet Ctx.
From Verif.Spec Require Import BufferSpec CodecSpec EngineSpec IdentitySpec MessageSpec CtxSpec.
From Verif.Proofs Require Import BytesFacts BufferFacts BufferProps CodecFacts EngineFacts ToyPrims ToyObjects MessageFacts PacketFacts CtxFacts CtxSafety EncodeFacts.
From Verif.Props Require Import PropsMessage PropsCtx.
From Coq Require Import ZifyBool ZifyNat ZifyN.
Local Open Scope N_scope.

(* the wanted statement is "fst (ctx_encode_packet P c p nodes s) <> UB" without a condition on p.
   It holds for every payload whose encoding leaves the 29 bytes of cipher id, nonce and tag below
   the buffer limit (and for those too large to be encoded at all), whatever the context, the
   recipients and the outcomes of key agreement, signing and encryption. *)
Theorem C62_encode_partial : forall P, rand_ok P -> ctr_ok P -> aead_ok P -> forall c p nodes s,
  (forall b, payload_serialize p = Some b -> blen b + 29 <= library_limit) ->
  fst (ctx_encode_packet P c p nodes s) <> UB.
Proof. exact (fun P RO CO AO c p nodes s F => ctx_encode_safe P c p nodes RO CO AO F s). Qed.
Print Assumptions C62_encode_partial.
(* in terms of the caller's payload: 106 bytes below the limit are always enough *)
Theorem C62_small_payload_partial : forall P, rand_ok P -> ctr_ok P -> aead_ok P -> forall c p nodes s,
  blen (me_tag (py_meta p)) + blen (py_body p) + 106 <= library_limit ->
  fst (ctx_encode_packet P c (Some p) nodes s) <> UB.
Proof.
  exact (fun P RO CO AO c p nodes s L => ctx_encode_safe P c (Some p) nodes RO CO AO
    (fun b H => N.le_trans (blen b + 29) (blen (me_tag (py_meta p)) + blen (py_body p) + 106) library_limit
      ltac:(pose proof (payload_short p b H); lia) L) s).
Qed.
Print Assumptions C62_small_payload_partial.
(* the same for the lower-level call, with any keys, versions and NULL arguments *)
Theorem C62_components_partial : forall P, rand_ok P -> ctr_ok P -> aead_ok P -> forall hk pk ek p nodes sender v s,
  (forall b, payload_serialize p = Some b -> blen b + 29 <= library_limit) ->
  fst (packet_create_from_components P hk pk ek p nodes sender v s) <> UB.
Proof. exact (fun P RO CO AO hk pk ek p nodes sender v s F => from_components_safe P hk pk ek p nodes sender v RO CO AO F s). Qed.
Print Assumptions C62_components_partial.
Example C62_case : rand_ok toy /\ ctr_ok toy /\ aead_ok toy /\ blen (me_tag (py_meta demo_payload)) + blen (py_body demo_payload) + 106 <= library_limit /\
  (exists e s, ctx_encode_packet toy (Some demo_ctx) (Some demo_payload) (Some demo_nodes) 400%nat = (Val e, s)) /\
  fst (ctx_encode_packet toy (Some demo_ctx) (Some demo_payload) (Some []) 400%nat) = Null.
Proof.
  split; [exact toy_rand|]. split; [exact toy_ctr|]. split; [exact toy_aead|]. split; [vm_compute; discriminate|].
  split; [eexists; eexists; vm_compute; reflexivity|vm_compute; reflexivity].
Qed.

(* outside that range nobody is safe: a context and recipients for which some payload can be sent
   dereference NULL on every payload whose encoding is within 29 bytes of the limit *)
Theorem C62_crash : forall P, rand_ok P -> ctr_ok P -> aead_ok P -> (forall i n, p_rand P i n <> None) ->
  forall c small nodes s e s', ctx_encode_packet P (Some c) (Some small) (Some nodes) s = (Val e, s') ->
  forall p b, payload_serialize (Some p) = Some b -> library_limit < blen b + 29 -> blen b < library_limit ->
  fst (ctx_encode_packet P (Some c) (Some p) (Some nodes) s) = UB.
Proof. exact (fun P RO CO AO RN c small nodes s e s' H p b => ctx_crash P c small p nodes s e s' b RO CO AO RN H). Qed.
Print Assumptions C62_crash.
(* such payloads exist *)
Definition body_length : N := 2147483590.
Definition with_body (d : bytes) : payload := {| py_meta := py_meta demo_payload; py_body := d |}.
Definition meta_field : bytes := Eval vm_compute in f_len 3 (pb_meta_pack (pp_meta (payload_to_proto demo_payload))).
Lemma meta_field_eq d : f_len 3 (pb_meta_pack (pp_meta (payload_to_proto (with_body d)))) = meta_field.
Proof. vm_compute. reflexivity. Qed.
Lemma with_body_length d : blen d = body_length -> blen (pb_payload_pack (payload_to_proto (with_body d))) = 2147483612.
Proof.
  intros L. unfold pb_payload_pack. rewrite meta_field_eq, blen_app. change (pp_body (payload_to_proto (with_body d))) with d. unfold f_len. rewrite !blen_app, L. vm_compute. reflexivity.
Qed.
Lemma with_body_serialize d : blen d = body_length -> exists b, payload_serialize (Some (with_body d)) = Some b /\ library_limit < blen b + 29 /\ blen b < library_limit.
Proof.
  intros L. apply with_body_length in L. exists (pb_payload_pack (payload_to_proto (with_body d))). rewrite L. split; [|split; reflexivity].
  unfold payload_serialize, pack_buffer. apply buffer_create_ok. rewrite L. reflexivity.
Qed.
Lemma huge_body : exists d, blen d = body_length.
Proof. exists (repeat x00 (N.to_nat body_length)). unfold blen. rewrite repeat_length. apply N2Nat.id. Qed.
Lemma huge_crashes d : blen d = body_length -> fst (ctx_encode_packet toy (Some demo_ctx) (Some (with_body d)) (Some demo_nodes) 400%nat) = UB.
Proof.
  intros L. assert (H : exists e s, ctx_encode_packet toy (Some demo_ctx) (Some demo_payload) (Some demo_nodes) 400%nat = (Val e, s)) by (eexists; eexists; vm_compute; reflexivity).
  destruct H as (e & s & H). destruct (with_body_serialize d L) as (b & S & L1 & L2).
  exact (ctx_crash toy demo_ctx demo_payload (with_body d) demo_nodes 400%nat e s b toy_rand toy_ctr toy_aead (proj1 toy_never_fails) H S L1 L2).
Qed.
Theorem C62_encode_refuted : ~ (forall P, rand_ok P -> ctr_ok P -> aead_ok P -> forall c p nodes s, fst (ctx_encode_packet P c p nodes s) <> UB).
Proof.
  exact (fun H => match huge_body with ex_intro _ d L => H toy toy_rand toy_ctr toy_aead (Some demo_ctx) (Some (with_body d)) (Some demo_nodes) 400%nat (huge_crashes d L) end).
Qed.
Print Assumptions C62_encode_refuted.
