(* C98-C101: sending a packet as operations on memory *)
From Verif.Base Require Import Bytes Monad.
From Verif.Model Require Import Buffer Cipher Ecdsa Prims Engine Keys Identity Node EcdhCipher Exchange Payload Packet Ctx Heap HeapObjects HeapMessages HeapEngine HeapProtocol HeapGenerate HeapContext HeapSending.
From Verif.Spec Require Import HeapSpec HeapObjectSpec CopySpec HeapEngineSpec HeapProtocolSpec HeapGenerateSpec HeapContextSpec HeapSendingSpec BufferSpec.
From Verif.Proofs Require Import ToyPrims ToyObjects HeapFacts HeapObjectFacts HeapExamples HeapEngineFacts HeapEngineExamples HeapProtocolExamples HeapGenerateExamples HeapContextFacts HeapContextExamples HeapStreamFacts HeapSendingFacts HeapSendingExamples.
Local Open Scope N_scope.

(* --- packet *)
Theorem C98_packet_partial
  (P : prims) (SH : sha_ok P) (R : rand_ok P) (A : aead_ok P) (C : ctr_ok P) (R1 : scrypt_ok P) (R2 : hkdf_ok P) (SO : sign_ok P)
  hk pk ek pl rs se version s (MK : made_ec_key (key_value ek)) (SD : sendable (py_value pl)) (CO : countable rs)
  (C0 : forall q, hkey_pri (hid_key (hch_node se)) = Some q -> p_d2i P (b_bytes q) <> None) :
  changes_cleanly [ck_cells hk; ck_cells pk; key_cells ek; py_cells pl; ch_cells se] (arr_cells nd_cells rs) (with_recipients pt_cells)
    (sends_ok pt_value P rs (fst (packet_create_from_components P (Some (ck_value hk)) (Some (ck_value pk)) (Some (key_value ek)) (Some (py_value pl))
      (Some (recipients_value (harr_items rs))) (Some (ch_value se)) version s)))
    (sending_public P (ck_value hk) (ck_value pk) (key_value ek) (py_value pl) (recipients_value (harr_items rs)) (ch_value se) version s)
    (h_packet_create_from_components P (Some hk) (Some pk) (Some ek) (Some pl) (Some rs) (Some se) version s).
Proof. exact (change_clean _ _ _ _ _ _ _ _ _ _ (use_sound _ _ _ _ _ _ _ _ _ (from_components_rule P SH R A C R1 R2 SO hk pk ek pl rs se version s MK SD CO)) (sender_fits _ _ C0) (fun a => sends_never P _ _ _ _ _ _ _ _ R a)). Qed.
Print Assumptions C98_packet_partial.

Theorem C99_packet_partial
  (P : prims) (SH : sha_ok P) (R : rand_ok P) (A : aead_ok P) (C : ctr_ok P) (R1 : scrypt_ok P) (R2 : hkdf_ok P) (SO : sign_ok P)
  hk pk ek pl rs se version s (MK : made_ec_key (key_value ek)) (SD : sendable (py_value pl)) (CO : countable rs) :
  changes_in_memory [ck_cells hk; ck_cells pk; key_cells ek; py_cells pl; ch_cells se] (arr_cells nd_cells rs) (with_recipients pt_cells)
    (sends pt_value P rs (fst (packet_to P (ck_value hk) (ck_value pk) (key_value ek) (py_value pl) (recipients_value (harr_items rs)) (ch_value se) version s)))
    (sending_public P (ck_value hk) (ck_value pk) (key_value ek) (py_value pl) (recipients_value (harr_items rs)) (ch_value se) version s)
    (exchanges_exposed P (ch_value se) (key_value ek) (ck_value pk) version (recipients_value (harr_items rs)))
    sending_kinds
    (sign_leak P (Some (hid_key (hch_node se))))
    (h_packet_create_from_components P (Some hk) (Some pk) (Some ek) (Some pl) (Some rs) (Some se) version s).
Proof. exact (use_sound _ _ _ _ _ _ _ _ _ (from_components_rule P SH R A C R1 R2 SO hk pk ek pl rs se version s MK SD CO)). Qed.
Print Assumptions C99_packet_partial.

Theorem C100_packet_partial
  (P : prims) (SH : sha_ok P) (R : rand_ok P) (A : aead_ok P) (C : ctr_ok P) (R1 : scrypt_ok P) (R2 : hkdf_ok P) (SO : sign_ok P)
  hk pk ek pl rs se version s (MK : made_ec_key (key_value ek)) (SD : sendable (py_value pl)) (CO : countable rs) :
  hides_change [ck_cells hk; ck_cells pk; key_cells ek; py_cells pl; ch_cells se] (arr_cells nd_cells rs)
    ((sending_public P (ck_value hk) (ck_value pk) (key_value ek) (py_value pl) (recipients_value (harr_items rs)) (ch_value se) version s) ++ (exchanges_exposed P (ch_value se) (key_value ek) (ck_value pk) version (recipients_value (harr_items rs))))
    (h_packet_create_from_components P (Some hk) (Some pk) (Some ek) (Some pl) (Some rs) (Some se) version s).
Proof. exact (change_hides_all _ _ _ _ _ _ _ _ _ (use_sound _ _ _ _ _ _ _ _ _ (from_components_rule P SH R A C R1 R2 SO hk pk ek pl rs se version s MK SD CO))). Qed.
Print Assumptions C100_packet_partial.

(* --- encode *)
Theorem C98_encode_partial
  (P : prims) (EO : ec_ok P) (GO : gen_ok P) (SH : sha_ok P) (R : rand_ok P) (A : aead_ok P) (C : ctr_ok P) (R1 : scrypt_ok P) (R2 : hkdf_ok P) (SO : sign_ok P)
  x pl rs s (SD : sendable (py_value pl)) (CO : countable rs)
  (C0 : forall q, hkey_pri (hid_key (hch_node (hcx_chain x))) = Some q -> p_d2i P (b_bytes q) <> None) :
  changes_cleanly [cx_cells x; py_cells pl] (arr_cells nd_cells rs) (with_recipients en_cells)
    (encodes_ok P (cx_value x) (py_value pl) rs s)
    (encoding_public P (cx_value x) (py_value pl) (recipients_value (harr_items rs)) s)
    (h_ctx_encode_packet P (Some x) (Some pl) (Some rs) s).
Proof. exact (change_clean _ _ _ _ _ _ _ _ _ _ (use_sound _ _ _ _ _ _ _ _ _ (encode_rule P EO GO SH R A C R1 R2 SO x pl rs s SD CO)) (sender_fits _ _ C0) (fun a => encodes_never P _ _ _ _ R a)). Qed.
Print Assumptions C98_encode_partial.

Theorem C99_encode_partial
  (P : prims) (EO : ec_ok P) (GO : gen_ok P) (SH : sha_ok P) (R : rand_ok P) (A : aead_ok P) (C : ctr_ok P) (R1 : scrypt_ok P) (R2 : hkdf_ok P) (SO : sign_ok P)
  x pl rs s (SD : sendable (py_value pl)) (CO : countable rs) :
  changes_in_memory [cx_cells x; py_cells pl] (arr_cells nd_cells rs) (with_recipients en_cells)
    (encodes_right P (cx_value x) (py_value pl) rs s)
    (encoding_public P (cx_value x) (py_value pl) (recipients_value (harr_items rs)) s)
    (encoding_exposed P (cx_value x) (recipients_value (harr_items rs)) s)
    sending_kinds
    (sign_leak P (Some (hid_key (hch_node (hcx_chain x)))))
    (h_ctx_encode_packet P (Some x) (Some pl) (Some rs) s).
Proof. exact (use_sound _ _ _ _ _ _ _ _ _ (encode_rule P EO GO SH R A C R1 R2 SO x pl rs s SD CO)). Qed.
Print Assumptions C99_encode_partial.

Theorem C100_encode_partial
  (P : prims) (EO : ec_ok P) (GO : gen_ok P) (SH : sha_ok P) (R : rand_ok P) (A : aead_ok P) (C : ctr_ok P) (R1 : scrypt_ok P) (R2 : hkdf_ok P) (SO : sign_ok P)
  x pl rs s (SD : sendable (py_value pl)) (CO : countable rs) :
  hides_change [cx_cells x; py_cells pl] (arr_cells nd_cells rs)
    ((encoding_public P (cx_value x) (py_value pl) (recipients_value (harr_items rs)) s) ++ (encoding_exposed P (cx_value x) (recipients_value (harr_items rs)) s))
    (h_ctx_encode_packet P (Some x) (Some pl) (Some rs) s).
Proof. exact (change_hides_all _ _ _ _ _ _ _ _ _ (use_sound _ _ _ _ _ _ _ _ _ (encode_rule P EO GO SH R A C R1 R2 SO x pl rs s SD CO))). Qed.
Print Assumptions C100_encode_partial.

Theorem C101_packet
  (P : prims) (SH : sha_ok P) (R : rand_ok P) (A : aead_ok P) (C : ctr_ok P) (R1 : scrypt_ok P) (R2 : hkdf_ok P) (SO : sign_ok P)
  hk pk ek pl rs se version s (MK : made_ec_key (key_value ek)) (SD : sendable (py_value pl)) (CO : countable rs) fails h t rs' h' :
  heap_ok h -> in_memory h (arr_cells nd_cells rs) -> all_in_memory h [ck_cells hk; ck_cells pk; key_cells ek; py_cells pl; ch_cells se] -> separate [ck_cells hk; ck_cells pk; key_cells ek; py_cells pl; ch_cells se] (arr_cells nd_cells rs) ->
  h_packet_create_from_components P (Some hk) (Some pk) (Some ek) (Some pl) (Some rs) (Some se) version s fails h = Some ((Some t, rs'), h') ->
  all_trusted P (recipients_value (harr_items rs)) /\
  fst (packet_to P (ck_value hk) (ck_value pk) (key_value ek) (py_value pl) (recipients_value (harr_items rs)) (ch_value se) version s) = Val (pt_value t).
Proof. exact (sent_trusted P SH R A C R1 R2 SO hk pk ek pl rs se version s fails h t rs' h' MK SD CO). Qed.
Print Assumptions C101_packet.

Theorem C101_encode
  (P : prims) (EO : ec_ok P) (GO : gen_ok P) (SH : sha_ok P) (R : rand_ok P) (A : aead_ok P) (C : ctr_ok P) (R1 : scrypt_ok P) (R2 : hkdf_ok P) (SO : sign_ok P)
  x pl rs s (SD : sendable (py_value pl)) (CO : countable rs) fails h t rs' h' :
  heap_ok h -> in_memory h (arr_cells nd_cells rs) -> all_in_memory h [cx_cells x; py_cells pl] -> separate [cx_cells x; py_cells pl] (arr_cells nd_cells rs) ->
  h_ctx_encode_packet P (Some x) (Some pl) (Some rs) s fails h = Some ((Some t, rs'), h') ->
  all_trusted P (recipients_value (harr_items rs)) /\
  encoded_to P (cx_value x) (py_value pl) (recipients_value (harr_items rs)) s = Val (en_value t).
Proof. exact (encoded_trusted P EO GO SH R A C R1 R2 SO x pl rs s fails h t rs' h' SD CO). Qed.
Print Assumptions C101_encode.

(* --- the conditions of the theorems hold of these cases *)
Example C98_laws : sha_ok toy /\ rand_ok toy /\ aead_ok toy /\ ctr_ok toy /\ scrypt_ok toy /\ hkdf_ok toy /\ sign_ok toy /\ ec_ok toy /\ gen_ok toy.
Proof. exact sending_laws. Qed.
Example C98_conditions : made_ec_key (key_value h_exchange_to) /\ sendable (py_value h_message) /\ countable h_both /\ countable h_spoilt /\
  (forall q, hkey_pri (hid_key (hch_node h_from)) = Some q -> p_d2i toy (b_bytes q) <> None) /\
  (forall q, hkey_pri (hid_key (hch_node (hcx_chain h_ctx_to))) = Some q -> p_d2i toy (b_bytes q) <> None).
Proof. exact sending_conditions. Qed.
(* a packet for two recipients *)
Example C98_packet_case : changes_as sending_args (arr_cells nd_cells h_both) sent
  (h_packet_create_from_components toy (Some h_header_to) (Some h_payload_to) (Some h_exchange_to) (Some h_message) (Some h_both) (Some h_from) 4 5).
Proof. by_changing. Qed.
(* none when the key of the second is not signed *)
Example C98_packet_spoilt_case : changes_as sending_args (arr_cells nd_cells h_spoilt) not_sent
  (h_packet_create_from_components toy (Some h_header_to) (Some h_payload_to) (Some h_exchange_to) (Some h_message) (Some h_spoilt) (Some h_from) 4 5).
Proof. by_changing. Qed.
Example C98_encode_case : changes_as [cx_cells h_ctx_to; py_cells h_message] (arr_cells nd_cells h_both) sent
  (h_ctx_encode_packet toy (Some h_ctx_to) (Some h_message) (Some h_both) 5).
Proof. by_changing. Qed.
(* a packet comes out although an allocation failed *)
Example C101_failing_case : exists h t rs' h', heap_ok h /\ in_memory h (arr_cells nd_cells h_both) /\ all_in_memory h sending_args /\ separate sending_args (arr_cells nd_cells h_both) /\
  h_packet_create_from_components toy (Some h_header_to) (Some h_payload_to) (Some h_exchange_to) (Some h_message) (Some h_both) (Some h_from) 4 5 (only 184) h = Some ((Some t, rs'), h').
Proof. exact sent_anyway. Qed.
(* --- what goes wrong *)
Theorem C98_packet_refuted :
  change_leaves [ck_cells h_header_to; ck_cells h_payload_to; key_cells h_exchange_to; py_cells h_message; ch_cells h_from_broken] (arr_cells nd_cells h_one) (with_recipients pt_cells) never []
    (h_packet_create_from_components toy (Some h_header_to) (Some h_payload_to) (Some h_exchange_to) (Some h_message) (Some h_one) (Some h_from_broken) 4 5).
Proof. exact C98_packet_refuted_ok. Qed.
Print Assumptions C98_packet_refuted.

Theorem C98_encode_refuted :
  change_leaves [cx_cells h_ctx_broken; py_cells h_message] (arr_cells nd_cells h_one) (with_recipients en_cells) never []
    (h_ctx_encode_packet toy (Some h_ctx_broken) (Some h_message) (Some h_one) 5).
Proof. exact C98_encode_refuted_ok. Qed.
Print Assumptions C98_encode_refuted.

Theorem C99_packet_refuted :
  change_crashes sending_args (arr_cells nd_cells h_both)
    (h_packet_create_from_components toy (Some h_header_to) (Some h_payload_to) (Some h_exchange_to) (Some h_message) (Some h_both) (Some h_from) 4 5).
Proof. exact C99_packet_refuted_ok. Qed.
Print Assumptions C99_packet_refuted.

Theorem C99_packet_exchange_refuted :
  change_crashes sending_args (arr_cells nd_cells h_both)
    (h_packet_create_from_components toy (Some h_header_to) (Some h_payload_to) (Some h_exchange_to) (Some h_message) (Some h_both) (Some h_from) 4 5).
Proof. exact C99_packet_exchange_refuted_ok. Qed.
Print Assumptions C99_packet_exchange_refuted.

Theorem C99_packet_key_refuted :
  change_crashes sending_args (arr_cells nd_cells h_both)
    (h_packet_create_from_components toy (Some h_header_to) (Some h_payload_to) (Some h_exchange_to) (Some h_message) (Some h_both) (Some h_from) 4 5).
Proof. exact C99_packet_key_refuted_ok. Qed.
Print Assumptions C99_packet_key_refuted.

Theorem C99_encode_refuted :
  change_crashes [cx_cells h_ctx_to; py_cells h_message] (arr_cells nd_cells h_both)
    (h_ctx_encode_packet toy (Some h_ctx_to) (Some h_message) (Some h_both) 5).
Proof. exact C99_encode_refuted_ok. Qed.
Print Assumptions C99_encode_refuted.

Theorem C99_packet_leaks_refuted :
  exists fails, change_leaves sending_args (arr_cells nd_cells h_both) (with_recipients pt_cells) fails v_shared
    (h_packet_create_from_components toy (Some h_header_to) (Some h_payload_to) (Some h_exchange_to) (Some h_message) (Some h_both) (Some h_from) 4 5).
Proof. exact C99_packet_leaks_refuted_ok. Qed.
Print Assumptions C99_packet_leaks_refuted.

Theorem C100_packet_refuted :
  exists fails, change_exposes sending_args (arr_cells nd_cells h_both) fails v_shared
    (h_packet_create_from_components toy (Some h_header_to) (Some h_payload_to) (Some h_exchange_to) (Some h_message) (Some h_both) (Some h_from) 4 5).
Proof. exact C100_packet_refuted_ok. Qed.
Print Assumptions C100_packet_refuted.

Theorem C99_recipient_refuted :
  exists fails h rs1 h1 rs2 h2, heap_ok h /\ in_memory h (arr_cells nd_cells h_one) /\ all_in_memory h sending_args /\ separate sending_args (arr_cells nd_cells h_one) /\
    (exists p, fst (packet_create_from_components toy (Some (ck_value h_header_to)) (Some (ck_value h_payload_to)) (Some (key_value h_exchange_to)) (Some (py_value h_message)) (Some (recipients_value (harr_items h_one))) (Some (ch_value h_from)) 4 5%nat) = Val p) /\
    h_packet_create_from_components toy (Some h_header_to) (Some h_payload_to) (Some h_exchange_to) (Some h_message) (Some h_one) (Some h_from) 4 5 fails h = Some ((None, Some rs1), h1) /\
    h_packet_create_from_components toy (Some h_header_to) (Some h_payload_to) (Some h_exchange_to) (Some h_message) (Some rs1) (Some h_from) 4 5 never h1 = Some ((None, rs2), h2).
Proof. exact spoiled_recipient. Qed.
Print Assumptions C99_recipient_refuted.
