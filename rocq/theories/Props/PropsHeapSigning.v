(* C102-C105: signing a transport packet and verifying one as operations on memory *)
From Verif.Base Require Import Bytes Monad.
From Verif.Model Require Import Buffer Cipher Ecdsa Prims Engine Keys Identity TransportPacket Heap HeapObjects HeapMessages HeapEngine HeapGenerate HeapContext HeapSigning.
From Verif.Spec Require Import HeapSpec HeapObjectSpec CopySpec HeapEngineSpec HeapProtocolSpec HeapContextSpec HeapSigningSpec.
From Verif.Proofs Require Import ToyPrims ToyObjects HeapFacts HeapObjectFacts HeapExamples HeapEngineFacts HeapEngineExamples HeapProtocolExamples HeapContextFacts HeapContextExamples HeapStreamFacts HeapSigningFacts HeapSigningExamples.
Local Open Scope N_scope.

(* --- sign *)
Theorem C102_sign_partial
  (P : prims) (SO : sign_ok P) p c s
  (N0 : htp_mac p = None) (N1 : htp_network p = None)
  (C0 : forall q, hkey_pri (hid_key (hch_node c)) = Some q -> p_d2i P (b_bytes q) <> None) :
  changes_cleanly [ch_cells c] (tp_cells p) packet_left
    (sign_ok_after P p (ch_value c) s)
    (packet_sign_public P (tp_value p) (ch_value c) s)
    (h_tpacket_sign P p c s).
Proof. exact (change_clean _ _ _ _ _ _ _ _ _ _ (use_sound _ _ _ _ _ _ _ _ _ (packet_sign_rule P SO p c s)) (packet_sign_fits P p c N0 N1 C0) (fun a R => sign_never P _ _ _ a R)). Qed.
Print Assumptions C102_sign_partial.

Theorem C103_sign_partial
  (P : prims) (SO : sign_ok P) p c s :
  changes_in_memory [ch_cells c] (tp_cells p) packet_left
    (sign_right P p (ch_value c) s)
    (packet_sign_public P (tp_value p) (ch_value c) s) []
    sign_kinds (packet_sign_leak P p c)
    (h_tpacket_sign P p c s).
Proof. exact (use_sound _ _ _ _ _ _ _ _ _ (packet_sign_rule P SO p c s)). Qed.
Print Assumptions C103_sign_partial.

Theorem C104_sign
  (P : prims) (SO : sign_ok P) p c s :
  hides_change [ch_cells c] (tp_cells p)
    (packet_sign_public P (tp_value p) (ch_value c) s)
    (h_tpacket_sign P p c s).
Proof. exact (change_hides _ _ _ _ _ _ _ _ (use_sound _ _ _ _ _ _ _ _ _ (packet_sign_rule P SO p c s))). Qed.
Print Assumptions C104_sign.

(* --- verify *)
Theorem C102_verify
  (P : prims) (SH : sha_ok P) p c :
  changes_cleanly [] (tp_cells p ++ ch_cells c) verify_left
    (verify_ok P p c)
    (verify_public P (tp_value p) (ch_value c))
    (h_tpacket_verify P p c).
Proof. exact (change_clean _ _ _ _ _ _ _ _ _ _ (use_sound _ _ _ _ _ _ _ _ _ (packet_verify_rule P SH p c)) (fun F : never_leaks_op never => F) (fun a R => verify_never P _ _ a R)). Qed.
Print Assumptions C102_verify.

Theorem C103_verify_partial
  (P : prims) (SH : sha_ok P) p c :
  changes_in_memory [] (tp_cells p ++ ch_cells c) verify_left
    (verify_right P p c)
    (verify_public P (tp_value p) (ch_value c)) []
    verify_kinds never_leaks_op
    (h_tpacket_verify P p c).
Proof. exact (use_sound _ _ _ _ _ _ _ _ _ (packet_verify_rule P SH p c)). Qed.
Print Assumptions C103_verify_partial.

Theorem C104_verify
  (P : prims) (SH : sha_ok P) p c :
  hides_change [] (tp_cells p ++ ch_cells c)
    (verify_public P (tp_value p) (ch_value c))
    (h_tpacket_verify P p c).
Proof. exact (change_hides _ _ _ _ _ _ _ _ (use_sound _ _ _ _ _ _ _ _ _ (packet_verify_rule P SH p c))). Qed.
Print Assumptions C104_verify.

Theorem C105_verified
  (P : prims) (SH : sha_ok P) p c fails h p' c' h' :
  heap_ok h -> in_memory h (tp_cells p ++ ch_cells c) -> h_tpacket_verify P p c fails h = Some ((true, p', c'), h') ->
  vouched P (tp_value p) (ch_value c).
Proof. exact (verified_vouched P SH p c fails h p' c' h'). Qed.
Print Assumptions C105_verified.

(* --- the conditions of the theorems hold of these cases *)
Example C102_laws : sha_ok toy /\ sign_ok toy.
Proof. exact signing_laws. Qed.
Example C102_conditions : htp_mac h_unsigned = None /\ htp_network h_unsigned = None /\ (forall q, hkey_pri (hid_key (hch_node h_signer)) = Some q -> p_d2i toy (b_bytes q) <> None).
Proof. exact signing_conditions. Qed.
(* a packet is signed, and verified where it arrives *)
Example C102_sign_case : changes_as [ch_cells h_signer] (tp_cells h_unsigned) signed_yes (h_tpacket_sign toy h_unsigned h_signer 50).
Proof. by_changing. Qed.
Example C102_arrives_case : exists h p1 n h1, heap_ok h /\ in_memory h (tp_cells h_unsigned) /\ all_in_memory h [ch_cells h_signer] /\ separate [ch_cells h_signer] (tp_cells h_unsigned) /\
    h_tpacket_sign toy h_unsigned h_signer 50 never h = Some ((true, p1), h1) /\ htp_network p1 = Some n /\ arrives toy (b_bytes n) v_signer = true.
Proof. exact signed_arrives. Qed.
Example C102_verify_case : changes_as [] (tp_cells h_signed ++ ch_cells h_signer) verified_yes (h_tpacket_verify toy h_signed h_signer).
Proof. by_changing. Qed.
Example C102_verify_copied_case : changes_as [] (tp_cells h_copied ++ ch_cells h_signer) verified_yes (h_tpacket_verify toy h_copied h_signer).
Proof. by_changing. Qed.
(* not with another body, and not without a signature *)
Example C102_verify_altered_case : changes_as [] (tp_cells h_altered ++ ch_cells h_signer) verified_no (h_tpacket_verify toy h_altered h_signer).
Proof. by_changing. Qed.
Example C102_verify_unsigned_case : changes_as [] (tp_cells h_unsigned ++ ch_cells h_signer) verified_no (h_tpacket_verify toy h_unsigned h_signer).
Proof. by_changing. Qed.
(* a packet is verified although an allocation failed *)
Example C105_failing_case : exists h p1 c1 h1, heap_ok h /\ in_memory h (tp_cells h_signed ++ ch_cells h_signer) /\
    h_tpacket_verify toy h_signed h_signer (only 31) h = Some ((true, p1, c1), h1).
Proof. exact verified_anyway. Qed.
(* --- what goes wrong *)
Theorem C102_resign_refuted :
  exists mac, htp_mac h_signed = Some mac /\ change_forgets [ch_cells h_signer] (tp_cells h_signed) packet_left never (b_bytes mac) (h_tpacket_sign toy h_signed h_signer 50).
Proof. exact C102_resign_refuted_ok. Qed.
Print Assumptions C102_resign_refuted.

Theorem C102_network_refuted :
  exists n, htp_network h_parsed = Some n /\ change_forgets [ch_cells h_signer] (tp_cells h_parsed) packet_left never (b_bytes n) (h_tpacket_sign toy h_parsed h_signer 50).
Proof. exact C102_network_refuted_ok. Qed.
Print Assumptions C102_network_refuted.

Theorem C102_key_refuted :
  change_leaves [ch_cells h_signer_broken] (tp_cells h_unsigned) packet_left never [] (h_tpacket_sign toy h_unsigned h_signer_broken 50).
Proof. exact C102_key_refuted_ok. Qed.
Print Assumptions C102_key_refuted.

Theorem C103_sign_refuted :
  change_crashes [ch_cells h_signer] (tp_cells h_unsigned) (h_tpacket_sign toy h_unsigned h_signer 50).
Proof. exact C103_sign_refuted_ok. Qed.
Print Assumptions C103_sign_refuted.

Theorem C103_sign_result_refuted :
  change_crashes [ch_cells h_signer] (tp_cells h_unsigned) (h_tpacket_sign toy h_unsigned h_signer 50).
Proof. exact C103_sign_result_refuted_ok. Qed.
Print Assumptions C103_sign_result_refuted.

Theorem C103_verify_refuted :
  change_crashes [] (tp_cells h_signed ++ ch_cells h_signer) (h_tpacket_verify toy h_signed h_signer).
Proof. exact C103_verify_refuted_ok. Qed.
Print Assumptions C103_verify_refuted.

Theorem C103_sign_leaks_refuted :
  exists fails, change_leaves [ch_cells h_signer] (tp_cells h_unsigned) packet_left fails [] (h_tpacket_sign toy h_unsigned h_signer 50).
Proof. exact C103_sign_leaks_refuted_ok. Qed.
Print Assumptions C103_sign_leaks_refuted.

Theorem C103_spoiled_refuted :
  exists fails h p1 n h1, heap_ok h /\ in_memory h (tp_cells h_unsigned) /\ all_in_memory h [ch_cells h_signer] /\ separate [ch_cells h_signer] (tp_cells h_unsigned) /\
    h_tpacket_sign toy h_unsigned h_signer 50 fails h = Some ((true, p1), h1) /\ htp_network p1 = Some n /\ arrives toy (b_bytes n) v_signer = false.
Proof. exact spoiled_mac. Qed.
Print Assumptions C103_spoiled_refuted.

Theorem C103_half_signed_refuted :
  exists fails h p1 h1 p2 n h2, heap_ok h /\ in_memory h (tp_cells h_unsigned) /\ all_in_memory h [ch_cells h_signer] /\ separate [ch_cells h_signer] (tp_cells h_unsigned) /\
    h_tpacket_sign toy h_unsigned h_signer 50 fails h = Some ((false, p1), h1) /\
    h_tpacket_sign toy p1 h_signer 51 never h1 = Some ((true, p2), h2) /\ htp_network p2 = Some n /\ arrives toy (b_bytes n) v_signer = false.
Proof. exact half_signed. Qed.
Print Assumptions C103_half_signed_refuted.

Theorem C103_chain_refuted :
  exists fails h p1 c1 h1 p2 c2 h2, heap_ok h /\ in_memory h (tp_cells h_signed ++ ch_cells h_signer) /\
    vouched toy (tp_value h_signed) (ch_value h_signer) /\
    h_tpacket_verify toy h_signed h_signer fails h = Some ((false, p1, c1), h1) /\
    h_tpacket_verify toy p1 c1 never h1 = Some ((false, p2, c2), h2).
Proof. exact distrusted. Qed.
Print Assumptions C103_chain_refuted.
