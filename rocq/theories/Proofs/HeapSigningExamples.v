(* Concrete arguments for the theorems of Props/PropsHeapSigning.v, and what goes wrong with some. *)
From Verif.Base Require Import Bytes Monad.
From Verif.Model Require Import Buffer Cipher Ecdsa Prims Engine Keys Identity TransportPacket Heap HeapObjects HeapMessages HeapEngine HeapGenerate HeapContext HeapSigning.
From Verif.Spec Require Import HeapSpec HeapObjectSpec CopySpec HeapEngineSpec HeapProtocolSpec HeapContextSpec HeapSigningSpec.
From Verif.Proofs Require Import ToyPrims ToyObjects BytesFacts HeapFacts HeapObjectFacts HeapExamples HeapEngineFacts HeapEngineExamples HeapProtocolExamples HeapGenerateExamples HeapContextExamples HeapSendingExamples HeapSigningFacts.
Local Open Scope N_scope.

Definition pl_tp (p : tpacket) : placed htp :=
  a <-@ fresh ;; n <-@ pl_opt pl_buf (tp_network p) ;; b <-@ pl_buf (tp_body p) ;; m <-@ pl_opt pl_buf (tp_mac p) ;;
  pret {| htp_addr := a; htp_network := n; htp_body := b; htp_mac := m; htp_meta := tp_meta p |}.
Definition v_unsigned : tpacket := {| tp_network := None; tp_body := [x68; x69]; tp_mac := None; tp_meta := meta_data 513 MAC_NONE |}.
Definition v_signer : chain := Eval vm_compute in toy_chain 1.
Definition v_signed : tpacket := Eval vm_compute in match fst (tpacket_sign toy v_unsigned v_signer 50%nat) with Val (_, p) => p | _ => v_unsigned end.
(* a packet, one with bytes for the network, a signed one, a signed one without bytes for the network, one with a wrong body *)
Definition h_unsigned : htp := Eval vm_compute in at_ 0%nat (pl_tp v_unsigned).
Definition h_parsed : htp := Eval vm_compute in at_ 0%nat (pl_tp (set_network v_unsigned (Some (oval [] (tpacket_serialize v_unsigned))))).
Definition h_signed : htp := Eval vm_compute in at_ 0%nat (pl_tp v_signed).
Definition h_copied : htp := Eval vm_compute in at_ 0%nat (pl_tp (set_network v_signed None)).
Definition h_altered : htp := Eval vm_compute in
  at_ 0%nat (pl_tp {| tp_network := None; tp_body := [x68; x6a]; tp_mac := tp_mac v_signed; tp_meta := tp_meta v_signed |}).
Definition h_signer : hch := Eval vm_compute in at_ 8%nat (pl_ch v_signer).
Definition h_signer_broken : hch := Eval vm_compute in at_ 8%nat (pl_ch (broken_chain v_signer)).
(* what the theorems are tried on *)
Definition signed_yes (a : bool * htp) : bool := fst a.
Definition verified_yes (a : bool * htp * hch) : bool := fst (fst a).
Definition verified_no (a : bool * htp * hch) : bool := negb (fst (fst a)).

Lemma signing_laws : sha_ok toy /\ sign_ok toy.
Proof. exact (conj toy_sha toy_sign). Qed.
Lemma signing_conditions : htp_mac h_unsigned = None /\ htp_network h_unsigned = None /\ (forall q, hkey_pri (hid_key (hch_node h_signer)) = Some q -> p_d2i toy (b_bytes q) <> None).
Proof. split; [reflexivity|]. split; [reflexivity|]. intros q E. vm_compute in E. injection E as <-. vm_compute. discriminate. Qed.
Lemma change_forgets_at {A} args owned (left : A -> list cell) fails kept x (op : H A) : apart (owned :: args) = true -> existsb (Nat.eqb x) (map fst owned) = true ->
  match op fails (heap_of (concat (owned :: args))) with
  | Some (a, h') => negb (existsb (Nat.eqb x) (map fst (left a))) && match mem h' x with Some c => beqb c kept | None => false end
  | None => false
  end = true -> change_forgets args owned left fails kept op.
Proof.
  intros D O E. destruct (op fails (heap_of (concat (owned :: args)))) as [[a h']|] eqn:W; [|discriminate E]. destruct (separate_ok _ _ D) as (A1 & A2 & A3 & A4).
  exists (heap_of (concat (owned :: args))), a, h'. repeat (split; [assumption|]). apply andb_prop in E. destruct E as (N & E). exists x.
  split. { apply existsb_exists in O. destruct O as (y & I & O). apply PeanoNat.Nat.eqb_eq in O. subst y. exact I. }
  split. { intros I. apply Bool.negb_true_iff in N. assert (T : existsb (Nat.eqb x) (map fst (left a)) = true) by (apply existsb_exists; exists x; split; [exact I|apply PeanoNat.Nat.eqb_refl]). rewrite T in N. discriminate N. }
  destruct (mem h' x) as [c|]; [|discriminate E]. apply beqb_spec in E. subst c. reflexivity.
Qed.

Definition at_start (p : htp) : heap := heap_of (concat [tp_cells p; ch_cells h_signer]).
Definition both_start (p : htp) : heap := heap_of (concat [(tp_cells p ++ ch_cells h_signer)%list]).
(* an allocation fails: the packet is signed, but nobody can verify it *)
Lemma spoiled_mac : exists fails h p1 n h1, heap_ok h /\ in_memory h (tp_cells h_unsigned) /\ all_in_memory h [ch_cells h_signer] /\ separate [ch_cells h_signer] (tp_cells h_unsigned) /\
    h_tpacket_sign toy h_unsigned h_signer 50 fails h = Some ((true, p1), h1) /\ htp_network p1 = Some n /\ arrives toy (b_bytes n) v_signer = false.
Proof.
  assert (D : apart [tp_cells h_unsigned; ch_cells h_signer] = true) by (vm_compute; reflexivity). destruct (separate_ok _ _ D) as (A1 & A2 & A3 & A4).
  assert (E : match h_tpacket_sign toy h_unsigned h_signer 50 (only 38) (at_start h_unsigned) with Some ((true, p'), h') => match htp_network p' with Some n => negb (arrives toy (b_bytes n) v_signer) | None => false end | _ => false end = true) by (vm_compute; reflexivity).
  destruct (h_tpacket_sign toy h_unsigned h_signer 50 (only 38) (at_start h_unsigned)) as [[[[|] p'] h']|] eqn:V; try discriminate E. destruct (htp_network p') as [n|] eqn:N; [|discriminate E].
  exists (only 38), (at_start h_unsigned), p', n, h'. repeat (split; [assumption|]). apply Bool.negb_true_iff. exact E.
Qed.
(* an allocation fails and the packet is not signed; signed once more, nobody can verify it *)
Lemma half_signed : exists fails h p1 h1 p2 n h2, heap_ok h /\ in_memory h (tp_cells h_unsigned) /\ all_in_memory h [ch_cells h_signer] /\ separate [ch_cells h_signer] (tp_cells h_unsigned) /\
    h_tpacket_sign toy h_unsigned h_signer 50 fails h = Some ((false, p1), h1) /\
    h_tpacket_sign toy p1 h_signer 51 never h1 = Some ((true, p2), h2) /\ htp_network p2 = Some n /\ arrives toy (b_bytes n) v_signer = false.
Proof.
  assert (D : apart [tp_cells h_unsigned; ch_cells h_signer] = true) by (vm_compute; reflexivity). destruct (separate_ok _ _ D) as (A1 & A2 & A3 & A4).
  assert (E : match h_tpacket_sign toy h_unsigned h_signer 50 (only 42) (at_start h_unsigned) with Some ((false, p1), h1) =>
    match h_tpacket_sign toy p1 h_signer 51 never h1 with Some ((true, p2), h2) => match htp_network p2 with Some n => negb (arrives toy (b_bytes n) v_signer) | None => false end | _ => false end | _ => false end = true) by (vm_compute; reflexivity).
  destruct (h_tpacket_sign toy h_unsigned h_signer 50 (only 42) (at_start h_unsigned)) as [[[[|] p1] h1]|] eqn:V1; try discriminate E.
  destruct (h_tpacket_sign toy p1 h_signer 51 never h1) as [[[[|] p2] h2]|] eqn:V2; try discriminate E. destruct (htp_network p2) as [n|] eqn:N; [|discriminate E].
  exists (only 42), (at_start h_unsigned), p1, h1, p2, n, h2. repeat (split; [assumption|]). apply Bool.negb_true_iff. exact E.
Qed.
(* the packet is good *)
Lemma signed_is_vouched : vouched toy (tp_value h_signed) (ch_value h_signer).
Proof.
  assert (D : apart [(tp_cells h_signed ++ ch_cells h_signer)%list] = true) by (vm_compute; reflexivity). destruct (separate_ok _ _ D) as (A1 & A2 & A3 & A4).
  assert (E : match h_tpacket_verify toy h_signed h_signer never (both_start h_signed) with Some ((true, _, _), _) => true | _ => false end = true) by (vm_compute; reflexivity).
  destruct (h_tpacket_verify toy h_signed h_signer never (both_start h_signed)) as [[[[[|] p1] c1] h1]|] eqn:V1; try discriminate E.
  exact (verified_vouched toy toy_sha h_signed h_signer never (both_start h_signed) p1 c1 h1 A1 A2 V1).
Qed.
(* an allocation fails while a good packet is verified: with the same chain it is not verified afterwards either *)
Lemma distrusted : exists fails h p1 c1 h1 p2 c2 h2, heap_ok h /\ in_memory h (tp_cells h_signed ++ ch_cells h_signer) /\
    vouched toy (tp_value h_signed) (ch_value h_signer) /\
    h_tpacket_verify toy h_signed h_signer fails h = Some ((false, p1, c1), h1) /\
    h_tpacket_verify toy p1 c1 never h1 = Some ((false, p2, c2), h2).
Proof.
  assert (D : apart [(tp_cells h_signed ++ ch_cells h_signer)%list] = true) by (vm_compute; reflexivity). destruct (separate_ok _ _ D) as (A1 & A2 & A3 & A4).
  assert (E : match h_tpacket_verify toy h_signed h_signer (only 29) (both_start h_signed) with Some ((false, p1, c1), h1) =>
    match h_tpacket_verify toy p1 c1 never h1 with Some ((false, p2, c2), h2) => true | _ => false end | _ => false end = true) by (vm_compute; reflexivity).
  destruct (h_tpacket_verify toy h_signed h_signer (only 29) (both_start h_signed)) as [[[[[|] p1] c1] h1]|] eqn:V1; try discriminate E.
  destruct (h_tpacket_verify toy p1 c1 never h1) as [[[[[|] p2] c2] h2]|] eqn:V2; try discriminate E.
  exists (only 29), (both_start h_signed), p1, c1, h1, p2, c2, h2. repeat (split; [assumption|]). split; [exact signed_is_vouched|split; [exact V1|exact V2]].
Qed.
(* a packet is verified although an allocation failed *)
Lemma verified_anyway : exists h p1 c1 h1, heap_ok h /\ in_memory h (tp_cells h_signed ++ ch_cells h_signer) /\
    h_tpacket_verify toy h_signed h_signer (only 31) h = Some ((true, p1, c1), h1).
Proof.
  assert (D : apart [(tp_cells h_signed ++ ch_cells h_signer)%list] = true) by (vm_compute; reflexivity). destruct (separate_ok _ _ D) as (A1 & A2 & A3 & A4).
  assert (E : match h_tpacket_verify toy h_signed h_signer (only 31) (both_start h_signed) with Some ((true, _, _), _) => true | _ => false end = true) by (vm_compute; reflexivity).
  destruct (h_tpacket_verify toy h_signed h_signer (only 31) (both_start h_signed)) as [[[[[|] p1] c1] h1]|] eqn:V1; try discriminate E.
  exists (both_start h_signed), p1, c1, h1. repeat (split; [assumption|]). exact V1.
Qed.
(* a packet signed with enough memory is verified where it arrives *)
Lemma signed_arrives : exists h p1 n h1, heap_ok h /\ in_memory h (tp_cells h_unsigned) /\ all_in_memory h [ch_cells h_signer] /\ separate [ch_cells h_signer] (tp_cells h_unsigned) /\
    h_tpacket_sign toy h_unsigned h_signer 50 never h = Some ((true, p1), h1) /\ htp_network p1 = Some n /\ arrives toy (b_bytes n) v_signer = true.
Proof.
  assert (D : apart [tp_cells h_unsigned; ch_cells h_signer] = true) by (vm_compute; reflexivity). destruct (separate_ok _ _ D) as (A1 & A2 & A3 & A4).
  assert (E : match h_tpacket_sign toy h_unsigned h_signer 50 never (at_start h_unsigned) with Some ((true, p'), h') => match htp_network p' with Some n => arrives toy (b_bytes n) v_signer | None => false end | _ => false end = true) by (vm_compute; reflexivity).
  destruct (h_tpacket_sign toy h_unsigned h_signer 50 never (at_start h_unsigned)) as [[[[|] p'] h']|] eqn:V; try discriminate E. destruct (htp_network p') as [n|] eqn:N; [|discriminate E].
  exists (at_start h_unsigned), p', n, h'. repeat (split; [assumption|]). exact E.
Qed.
(* what goes wrong *)
Lemma C102_resign_refuted_ok : exists mac, htp_mac h_signed = Some mac /\ change_forgets [ch_cells h_signer] (tp_cells h_signed) packet_left never (b_bytes mac) (h_tpacket_sign toy h_signed h_signer 50).
Proof. eexists. split; [reflexivity|]. apply (change_forgets_at _ _ _ _ _ 6%nat); vm_compute; reflexivity. Qed.

Lemma C102_network_refuted_ok : exists n, htp_network h_parsed = Some n /\ change_forgets [ch_cells h_signer] (tp_cells h_parsed) packet_left never (b_bytes n) (h_tpacket_sign toy h_parsed h_signer 50).
Proof. eexists. split; [reflexivity|]. apply (change_forgets_at _ _ _ _ _ 2%nat); vm_compute; reflexivity. Qed.

Lemma C102_key_refuted_ok : change_leaves [ch_cells h_signer_broken] (tp_cells h_unsigned) packet_left never [] (h_tpacket_sign toy h_unsigned h_signer_broken 50).
Proof. apply (change_leaves_at _ _ _ _ _ 32%nat); vm_compute; reflexivity. Qed.

Lemma C103_sign_refuted_ok : change_crashes [ch_cells h_signer] (tp_cells h_unsigned) (h_tpacket_sign toy h_unsigned h_signer 50).
Proof. refine (change_crashes_by _ _ (fun _ ty => match ty with T_openssl => true | _ => false end) _ _ _); vm_compute; reflexivity. Qed.

Lemma C103_sign_result_refuted_ok : change_crashes [ch_cells h_signer] (tp_cells h_unsigned) (h_tpacket_sign toy h_unsigned h_signer 50).
Proof. refine (change_crashes_by _ _ (fun _ ty => match ty with T_ecdsa_result => true | _ => false end) _ _ _); vm_compute; reflexivity. Qed.

Lemma C103_verify_refuted_ok : change_crashes [] (tp_cells h_signed ++ ch_cells h_signer) (h_tpacket_verify toy h_signed h_signer).
Proof. refine (change_crashes_by _ _ (fun _ ty => match ty with T_openssl => true | _ => false end) _ _ _); vm_compute; reflexivity. Qed.

Lemma C103_sign_leaks_refuted_ok : exists fails, change_leaves [ch_cells h_signer] (tp_cells h_unsigned) packet_left fails [] (h_tpacket_sign toy h_unsigned h_signer 50).
Proof. exists (only 33). apply (change_leaves_at _ _ _ _ _ 32%nat); vm_compute; reflexivity. Qed.
