(* Concrete arguments for the theorems of Props/PropsHeapSending.v, and what goes wrong with some. *)
From Verif.Base Require Import Bytes Monad.
From Verif.Model Require Import Buffer Cipher Ecdsa Prims Engine Keys Identity Node EcdhCipher Exchange Payload Packet Ctx Heap HeapObjects HeapMessages HeapEngine HeapProtocol HeapGenerate HeapContext HeapSending.
From Verif.Spec Require Import HeapSpec HeapObjectSpec CopySpec HeapEngineSpec HeapProtocolSpec HeapContextSpec HeapSendingSpec BufferSpec.
From Verif.Proofs Require Import ToyPrims ToyObjects BytesFacts HeapFacts HeapObjectFacts HeapExamples HeapEngineFacts HeapEngineExamples HeapProtocolExamples HeapGenerateExamples HeapContextExamples.
Local Open Scope N_scope.

Definition pl_nodes (l : list (option node)) : placed (harr hnd) :=
  b <-@ fresh ;; c <-@ fresh ;; d <-@ fresh ;; i <-@ pl_list (pl_opt pl_nd) l ;; pret {| harr_addr := b; harr_store := Some (c, d); harr_items := i |}.
(* two recipients; one whose key pair was signed by another; one *)
Definition v_friend : node := Eval vm_compute in toy_node 4.
Definition v_forged : node := Eval vm_compute in
  {| nd_dev_id := nd_dev_id v_friend; nd_chain := nd_chain v_friend; nd_keypair := nd_keypair v_node; nd_status := S_UNKNOWN; nd_cache := None |}.
Definition h_both : harr hnd := Eval vm_compute in at_ 90%nat (pl_nodes [Some v_node; Some v_friend]).
Definition h_spoilt : harr hnd := Eval vm_compute in at_ 90%nat (pl_nodes [Some v_node; Some v_forged]).
Definition h_one : harr hnd := Eval vm_compute in at_ 90%nat (pl_nodes [Some v_node]).
Definition h_header_to : hck := Eval vm_compute in at_ 20%nat (pl_ck v_other).
Definition h_payload_to : hck := Eval vm_compute in at_ 24%nat (pl_ck v_key).
Definition h_exchange_to : hkey := Eval vm_compute in at_ 28%nat (pl_key v_exchange_key).
Definition h_from : hch := Eval vm_compute in at_ 0%nat (pl_ch v_sender).
Definition h_message : hpy := Eval vm_compute in at_ 36%nat (pl_py v_payload).
Definition h_ctx_to : hcx := Eval vm_compute in at_ 45%nat (pl_cx v_ctx).
(* a sender whose private key cannot be decoded *)
Definition broken_chain (c : chain) : chain :=
  {| ch_root := ch_root c; ch_status := ch_status c; ch_cache := ch_cache c;
     ch_node := {| id_type := id_type (ch_node c); id_identifier := id_identifier (ch_node c); id_signature := id_signature (ch_node c);
                   id_key := {| ek_curve := P521; ek_pub := ek_pub (id_key (ch_node c)); ek_pri := Some (repeat x11 33) |} |} |}.
Definition h_from_broken : hch := Eval vm_compute in at_ 0%nat (pl_ch (broken_chain v_sender)).
Definition h_ctx_broken : hcx := Eval vm_compute in
  at_ 45%nat (pl_cx {| cx_dev := cx_dev v_ctx; cx_chain := broken_chain (cx_chain v_ctx); cx_storage := cx_storage v_ctx; cx_header_key := cx_header_key v_ctx; cx_version := cx_version v_ctx |}).
Definition sent {T} (a : option T * option (harr hnd)) : bool := made_some (fst a).
Definition not_sent {T} (a : option T * option (harr hnd)) : bool := negb (made_some (fst a)).

(* the private key of the sender is one *)
Lemma sender_fits P k : (forall q, hkey_pri k = Some q -> p_d2i P (b_bytes q) <> None) -> ~ sign_leak P (Some k) never.
Proof. intros C. apply sign_fits. intros x q E. injection E as <-. exact (C q). Qed.
Lemma sending_laws : sha_ok toy /\ rand_ok toy /\ aead_ok toy /\ ctr_ok toy /\ scrypt_ok toy /\ hkdf_ok toy /\ sign_ok toy /\ ec_ok toy /\ gen_ok toy.
Proof. exact (conj toy_sha (conj toy_rand (conj toy_aead (conj toy_ctr (conj toy_scrypt (conj toy_hkdf (conj toy_sign (conj toy_ec toy_gen)))))))). Qed.
Lemma sending_conditions : made_ec_key (key_value h_exchange_to) /\ sendable (py_value h_message) /\ countable h_both /\ countable h_spoilt /\
  (forall q, hkey_pri (hid_key (hch_node h_from)) = Some q -> p_d2i toy (b_bytes q) <> None) /\
  (forall q, hkey_pri (hid_key (hch_node (hcx_chain h_ctx_to))) = Some q -> p_d2i toy (b_bytes q) <> None).
Proof.
  split; [closed|]. split. { intros b E. vm_compute in E. injection E as <-. vm_compute. discriminate. }
  split; [vm_compute; reflexivity|]. split; [vm_compute; reflexivity|]. split; intros q E; vm_compute in E; injection E as <-; vm_compute; discriminate.
Qed.
(* a packet comes out although an allocation failed *)
Definition sending_args : list (list cell) := [ck_cells h_header_to; ck_cells h_payload_to; key_cells h_exchange_to; py_cells h_message; ch_cells h_from].
Lemma sent_anyway : exists h t rs' h', heap_ok h /\ in_memory h (arr_cells nd_cells h_both) /\ all_in_memory h sending_args /\ separate sending_args (arr_cells nd_cells h_both) /\
  h_packet_create_from_components toy (Some h_header_to) (Some h_payload_to) (Some h_exchange_to) (Some h_message) (Some h_both) (Some h_from) 4 5 (only 184) h = Some ((Some t, rs'), h').
Proof.
  assert (D : apart (arr_cells nd_cells h_both :: sending_args) = true) by (vm_compute; reflexivity). destruct (separate_ok _ _ D) as (A1 & A2 & A3 & A4).
  pose (h := heap_of (concat (arr_cells nd_cells h_both :: sending_args))).
  assert (E : match h_packet_create_from_components toy (Some h_header_to) (Some h_payload_to) (Some h_exchange_to) (Some h_message) (Some h_both) (Some h_from) 4 5 (only 184) h with Some ((Some _, _), _) => true | _ => false end = true) by (vm_compute; reflexivity).
  destruct (h_packet_create_from_components toy (Some h_header_to) (Some h_payload_to) (Some h_exchange_to) (Some h_message) (Some h_both) (Some h_from) 4 5 (only 184) h) as [[[[t|] rs'] h']|] eqn:V; try discriminate E.
  exists h, t, rs', h'. repeat (split; [assumption|]). exact V.
Qed.
(* a block that stays behind, named *)
Lemma change_leaves_at {A} args owned (left : A -> list cell) fails kept x (op : H A) : apart (owned :: args) = true ->
  match op fails (heap_of (concat (owned :: args))) with Some (a, h') => stays (heap_of (concat (owned :: args))) h' kept (left a) x | None => false end = true ->
  change_leaves args owned left fails kept op.
Proof.
  intros D E. destruct (op fails (heap_of (concat (owned :: args)))) as [[a h']|] eqn:W; [|discriminate E]. destruct (separate_ok _ _ D) as (A1 & A2 & A3 & A4).
  exists (heap_of (concat (owned :: args))), a, h'. repeat (split; [assumption|]). unfold stays, keeps in E. apply andb_prop in E. destruct E as (E & N).
  exists x. destruct (mem (heap_of (concat (owned :: args))) x); [discriminate E|]. destruct (mem h' x) as [c|]; [|discriminate E].
  apply beqb_spec in E. subst c. split; [reflexivity|]. split; [reflexivity|]. intros I. apply Bool.negb_true_iff in N.
  assert (T : existsb (Nat.eqb x) (map fst (left a)) = true) by (apply existsb_exists; exists x; split; [exact I|apply PeanoNat.Nat.eqb_refl]). rewrite T in N. discriminate N.
Qed.
(* an allocation fails once while a good recipient is validated: nothing is sent to it afterwards either *)
Lemma spoiled_recipient : exists fails h rs1 h1 rs2 h2, heap_ok h /\ in_memory h (arr_cells nd_cells h_one) /\ all_in_memory h sending_args /\ separate sending_args (arr_cells nd_cells h_one) /\
  (exists p, fst (packet_create_from_components toy (Some (ck_value h_header_to)) (Some (ck_value h_payload_to)) (Some (key_value h_exchange_to)) (Some (py_value h_message)) (Some (recipients_value (harr_items h_one))) (Some (ch_value h_from)) 4 5%nat) = Val p) /\
  h_packet_create_from_components toy (Some h_header_to) (Some h_payload_to) (Some h_exchange_to) (Some h_message) (Some h_one) (Some h_from) 4 5 fails h = Some ((None, Some rs1), h1) /\
  h_packet_create_from_components toy (Some h_header_to) (Some h_payload_to) (Some h_exchange_to) (Some h_message) (Some rs1) (Some h_from) 4 5 never h1 = Some ((None, rs2), h2).
Proof.
  assert (D : apart (arr_cells nd_cells h_one :: sending_args) = true) by (vm_compute; reflexivity). destruct (separate_ok _ _ D) as (A1 & A2 & A3 & A4).
  pose (h := heap_of (concat (arr_cells nd_cells h_one :: sending_args))).
  assert (E : match h_packet_create_from_components toy (Some h_header_to) (Some h_payload_to) (Some h_exchange_to) (Some h_message) (Some h_one) (Some h_from) 4 5 (only 126) h with Some ((None, Some rs1), h1) => match h_packet_create_from_components toy (Some h_header_to) (Some h_payload_to) (Some h_exchange_to) (Some h_message) (Some rs1) (Some h_from) 4 5 never h1 with Some ((None, _), _) => true | _ => false end | _ => false end = true) by (vm_compute; reflexivity).
  destruct (h_packet_create_from_components toy (Some h_header_to) (Some h_payload_to) (Some h_exchange_to) (Some h_message) (Some h_one) (Some h_from) 4 5 (only 126) h) as [[[[t|] [rs1|]] h1]|] eqn:E1; try discriminate E.
  destruct (h_packet_create_from_components toy (Some h_header_to) (Some h_payload_to) (Some h_exchange_to) (Some h_message) (Some rs1) (Some h_from) 4 5 never h1) as [[[[t|] rs2] h2]|] eqn:E2; try discriminate E.
  exists (only 126), h, rs1, h1, rs2, h2. repeat (split; [assumption|]). split; [|split; [exact E1|exact E2]]. eexists. vm_compute. reflexivity.
Qed.
(* what goes wrong *)
(* the key agreed on with the first recipient *)
Definition v_shared : bytes := Eval vm_compute in hd [] (wrap_exposed toy (Some (ch_value h_from)) (Some v_node) (Some v_exchange_key) (Some v_key) None 4).
Lemma C98_packet_refuted_ok : change_leaves [ck_cells h_header_to; ck_cells h_payload_to; key_cells h_exchange_to; py_cells h_message; ch_cells h_from_broken] (arr_cells nd_cells h_one) (with_recipients pt_cells) never []
    (h_packet_create_from_components toy (Some h_header_to) (Some h_payload_to) (Some h_exchange_to) (Some h_message) (Some h_one) (Some h_from_broken) 4 5).
Proof. apply (change_leaves_at _ _ _ _ _ 214%nat); vm_compute; reflexivity. Qed.

Lemma C98_encode_refuted_ok : change_leaves [cx_cells h_ctx_broken; py_cells h_message] (arr_cells nd_cells h_one) (with_recipients en_cells) never []
    (h_ctx_encode_packet toy (Some h_ctx_broken) (Some h_message) (Some h_one) 5).
Proof. apply (change_leaves_at _ _ _ _ _ 223%nat); vm_compute; reflexivity. Qed.

Lemma C99_packet_refuted_ok : change_crashes sending_args (arr_cells nd_cells h_both)
    (h_packet_create_from_components toy (Some h_header_to) (Some h_payload_to) (Some h_exchange_to) (Some h_message) (Some h_both) (Some h_from) 4 5).
Proof. refine (change_crashes_by _ _ (fun _ ty => match ty with T_openssl => true | _ => false end) _ _ _); vm_compute; reflexivity. Qed.

Lemma C99_packet_exchange_refuted_ok : change_crashes sending_args (arr_cells nd_cells h_both)
    (h_packet_create_from_components toy (Some h_header_to) (Some h_payload_to) (Some h_exchange_to) (Some h_message) (Some h_both) (Some h_from) 4 5).
Proof. refine (change_crashes_by _ _ (fun _ ty => match ty with T_key_exchange => true | _ => false end) _ _ _); vm_compute; reflexivity. Qed.

Lemma C99_packet_key_refuted_ok : change_crashes sending_args (arr_cells nd_cells h_both)
    (h_packet_create_from_components toy (Some h_header_to) (Some h_payload_to) (Some h_exchange_to) (Some h_message) (Some h_both) (Some h_from) 4 5).
Proof. refine (change_crashes_by _ _ (fun _ ty => match ty with T_ec_key => true | _ => false end) _ _ _); vm_compute; reflexivity. Qed.

Lemma C99_encode_refuted_ok : change_crashes [cx_cells h_ctx_to; py_cells h_message] (arr_cells nd_cells h_both)
    (h_ctx_encode_packet toy (Some h_ctx_to) (Some h_message) (Some h_both) 5).
Proof. refine (change_crashes_by _ _ (fun _ ty => match ty with T_ec_key => true | _ => false end) _ _ _); vm_compute; reflexivity. Qed.

Lemma C99_packet_leaks_refuted_ok : exists fails, change_leaves sending_args (arr_cells nd_cells h_both) (with_recipients pt_cells) fails v_shared
    (h_packet_create_from_components toy (Some h_header_to) (Some h_payload_to) (Some h_exchange_to) (Some h_message) (Some h_both) (Some h_from) 4 5).
Proof. exists (only 216). apply (change_leaves_at _ _ _ _ _ 212%nat); vm_compute; reflexivity. Qed.

Lemma C100_packet_refuted_ok : exists fails, change_exposes sending_args (arr_cells nd_cells h_both) fails v_shared
    (h_packet_create_from_components toy (Some h_header_to) (Some h_payload_to) (Some h_exchange_to) (Some h_message) (Some h_both) (Some h_from) 4 5).
Proof. exists (only 213). apply change_exposes_by; vm_compute; reflexivity. Qed.
