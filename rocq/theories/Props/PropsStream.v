(* C20-C26, C60: encrypted streams *)
From Verif.Base Require Import Bytes Monad.
From Verif.Model Require Import Buffer Cipher Ecdsa Prims Engine Stream.
From Verif.Spec Require Import BufferSpec CodecSpec EngineSpec StreamSpec.
From Verif.Proofs Require Import BytesFacts CodecFacts EngineFacts ToyPrims ToyObjects StreamFacts.
Local Open Scope N_scope.

(* a key with three packets per evolution, and contexts made from it *)
Definition toy_stream_key : stream_key :=
  {| sk_cipher := gcm_key (toy_digest 32 [x01]); sk_evo := toy_digest 32 [x02]; sk_ppe := 3; sk_user := Some [x75] |}.
Definition no_ctx : stream_ctx := {| sc_key := toy_stream_key; sc_last := 0; sc_dir := DECODE; sc_iv := None; sc_refs := 0 |}.
Definition toy_sender : stream_ctx := val no_ctx (stream_ctx_create toy (Some toy_stream_key) ENCODE 0%nat).
Definition toy_receiver : stream_ctx := val no_ctx (stream_ctx_create toy (Some toy_stream_key) DECODE 0%nat).
Example toy_stream_case : good_stream_key toy_stream_key /\
  stream_ctx_create toy (Some toy_stream_key) ENCODE 0%nat = (Val toy_sender, 1%nat) /\
  stream_ctx_create toy (Some toy_stream_key) DECODE 0%nat = (Val toy_receiver, 0%nat).
Proof.
  split; [|split; vm_compute; reflexivity]. unfold good_stream_key. split; [reflexivity|]. split; [vm_compute; reflexivity|].
  split; [vm_compute; split; congruence|]. split; [vm_compute; split; congruence|]. intros u H. apply Some_inj in H. subst u. vm_compute; split; congruence.
Qed.

(* C20: in every history of calls on one context, the sequence numbers of the calls that succeed
   are strictly increasing; so nothing is accepted twice or out of order *)
Theorem C20_accepted_increasing : forall P k d s c s' ops, hmac_ok P -> good_stream_key k ->
  stream_ctx_create P (Some k) d s = (Val c, s') ->
  increasing (flat_map accepted (fst (stream_run P c ops))).
Proof. exact accepted_increasing. Qed.
Print Assumptions C20_accepted_increasing.
Example C20_case : flat_map accepted (fst (stream_run toy toy_sender
    [Encode (Some [x41]) None 2; Encode (Some [x42]) None 2; Encode (Some [x43]) None 9; Encode (Some [x44]) None 5; GoOnWithCopy; Encode (Some [x44]) None 10])) = [2; 9; 10].
Proof. vm_compute. reflexivity. Qed.

(* C21: whatever the sender was asked to send, and whichever of the packets it sent arrive (in
   order), the receiver that started with the same key decodes every one of them *)
Theorem C21_receiver_in_step : forall P k s1 c1 s1' s2 c2 s2' msgs delivered,
  hmac_ok P -> ctr_ok P -> aead_ok P -> good_stream_key k ->
  stream_ctx_create P (Some k) ENCODE s1 = (Val c1, s1') -> stream_ctx_create P (Some k) DECODE s2 = (Val c2, s2') ->
  Forall (fun x => snd x <> []) msgs -> subsequence delivered (sent P c1 msgs) ->
  received P c2 delivered = map (fun p => Val (sp_data p)) delivered.
Proof. exact in_step. Qed.
Print Assumptions C21_receiver_in_step.
(* and each message with a new sequence number, of a size the library can hold, is sent *)
Theorem C21_sender_sends : forall P k s c s' ops d a n, hmac_ok P -> aead_ok P -> good_stream_key k ->
  stream_ctx_create P (Some k) ENCODE s = (Val c, s') -> N.of_nat (length ops) < two64 ->
  sc_last (snd (stream_run P c ops)) < n -> blen d < library_limit -> blen (bytes_of a) <= library_limit ->
  exists r, fst (stream_ctx_encode P (snd (stream_run P c ops)) (Some d) a n) = Val r.
Proof. exact sender_sends. Qed.
Print Assumptions C21_sender_sends.
Example C21_case : let l := sent toy toy_sender [(1, None, [x41]); (2, Some [x01], [x42]); (7, None, [x43]); (20, Some [x02], [x44; x45])] in
  length l = 4%nat /\ received toy toy_receiver [nth 1 l (hd {| sp_seq := 0; sp_aad := None; sp_data := []; sp_cipher := {| cr_cipher := AES256_CTR; cr_iv := []; cr_text := None; cr_tag := None |} |} l);
    nth 3 l (hd {| sp_seq := 0; sp_aad := None; sp_data := []; sp_cipher := {| cr_cipher := AES256_CTR; cr_iv := []; cr_text := None; cr_tag := None |} |} l)] = [Val [x42]; Val [x44; x45]].
Proof. vm_compute. split; reflexivity. Qed.

(* C22: after any history, a packet with number n is encrypted under the initial key evolved
   n / packets_per_evolution times *)
Theorem C22_key_of_packet : forall P k s c s' ops d a n r, hmac_ok P -> good_stream_key k ->
  stream_ctx_create P (Some k) ENCODE s = (Val c, s') ->
  fst (stream_ctx_encode P (snd (stream_run P c ops)) (Some d) a n) = Val r ->
  aes256_encrypt P (Some d) a (Some (packet_key P k n)) (Some (cr_iv r)) 0%nat = (Val r, 0%nat).
Proof. exact packet_encrypted_under. Qed.
Print Assumptions C22_key_of_packet.
(* and the context (sender's or receiver's) holds only the keys of its last number's evolution *)
Theorem C22_key_held : forall P k d s c s' ops, hmac_ok P -> good_stream_key k -> stream_ctx_create P (Some k) d s = (Val c, s') ->
  let c' := snd (stream_run P c ops) in
  (ck_data (sk_cipher (sc_key c')), sk_evo (sc_key c')) = keys_after P k (sc_last c' / sk_ppe k) /\ sk_ppe (sc_key c') = sk_ppe k.
Proof. exact sender_keys. Qed.
Print Assumptions C22_key_held.
Example C22_case : packet_key toy toy_stream_key 2 <> packet_key toy toy_stream_key 3 /\ packet_key toy toy_stream_key 3 = packet_key toy toy_stream_key 5 /\
  (exists r, fst (stream_ctx_encode toy (snd (stream_run toy toy_sender [Encode (Some [x41]) None 4])) (Some [x42]) None 100) = Val r).
Proof. split; [vm_compute; discriminate|]. split; [vm_compute; reflexivity|]. eexists. vm_compute. reflexivity. Qed.

(* C23: the IVs of the packets of one context are truncated HMACs of strictly increasing counters
   under its random seed *)
Theorem C23_iv_counters : forall P k s c s' ops, hmac_ok P -> good_stream_key k ->
  stream_ctx_create P (Some k) ENCODE s = (Val c, s') -> N.of_nat (length ops) < two64 ->
  exists seed l, p_rand P s 64 = Some seed /\ flat_map ivs (fst (stream_run P c ops)) = map (iv_of P seed) l /\
    Forall (fun x => x < two64) l /\ increasing l.
Proof. exact iv_counters. Qed.
Print Assumptions C23_iv_counters.
(* so they are pairwise different unless the truncated HMAC maps two of those counters to one value *)
Theorem C23_iv_distinct : forall P k s c s' ops seed, hmac_ok P -> good_stream_key k ->
  stream_ctx_create P (Some k) ENCODE s = (Val c, s') -> N.of_nat (length ops) < two64 -> p_rand P s 64 = Some seed ->
  (forall i j, i < two64 -> j < two64 -> i <> j ->
     In (iv_of P seed i) (flat_map ivs (fst (stream_run P c ops))) -> In (iv_of P seed j) (flat_map ivs (fst (stream_run P c ops))) ->
     iv_of P seed i <> iv_of P seed j) ->
  NoDup (flat_map ivs (fst (stream_run P c ops))).
Proof. exact iv_distinct. Qed.
Print Assumptions C23_iv_distinct.
Example C23_case : exists a b c, flat_map ivs (fst (stream_run toy toy_sender
    [Encode (Some [x41]) None 2; Encode (Some [x42]) None 3; Encode (Some [x42]) None 3; GoOnWithCopy; Encode (Some [x43]) None 9])) = [a; b; c] /\ a <> b /\ b <> c /\ a <> c.
Proof. eexists. eexists. eexists. split; [vm_compute; reflexivity|]. repeat split; discriminate. Qed.

(* C24 is false: whatever the context, its next packet and the next packet of its copy have the
   same IV, and the same key if their numbers lie in one evolution *)
Theorem C24_copy_reuses_nonce : forall P k s c s' ops c' d1 d2 a1 a2 n1 n2 r1 r2, hmac_ok P -> good_stream_key k ->
  stream_ctx_create P (Some k) ENCODE s = (Val c, s') ->
  stream_ctx_copy (Some (snd (stream_run P c ops))) = Some c' ->
  fst (stream_ctx_encode P (snd (stream_run P c ops)) (Some d1) a1 n1) = Val r1 -> fst (stream_ctx_encode P c' (Some d2) a2 n2) = Val r2 ->
  n1 / sk_ppe k = n2 / sk_ppe k -> cr_iv r1 = cr_iv r2 /\ packet_key P k n1 = packet_key P k n2.
Proof. exact copy_reuses_created. Qed.
Print Assumptions C24_copy_reuses_nonce.
Theorem C24_no_nonce_reuse_refuted : exists P k c c' s s' d1 d2 r1 r2, hmac_ok P /\ good_stream_key k /\
  stream_ctx_create P (Some k) ENCODE s = (Val c, s') /\ stream_ctx_copy (Some c) = Some c' /\ d1 <> d2 /\
  fst (stream_ctx_encode P c (Some d1) None 1) = Val r1 /\ fst (stream_ctx_encode P c' (Some d2) None 1) = Val r2 /\ cr_iv r1 = cr_iv r2.
Proof.
  exists toy, toy_stream_key, toy_sender, toy_sender, 0%nat, 1%nat, [x41], [x42]. eexists. eexists. split; [exact toy_hmac|]. split; [apply toy_stream_case|].
  split; [vm_compute; reflexivity|]. split; [vm_compute; reflexivity|]. split; [discriminate|]. split; [vm_compute; reflexivity|].
  split; vm_compute; reflexivity.
Qed.
Print Assumptions C24_no_nonce_reuse_refuted.
(* what is true: the IVs are distinct along any one line of use, even through copies, as long as
   only one of the two is used afterwards (GoOnWithCopy in C23); a copy decodes and encodes as the original *)
Theorem C24_copy_behaves_alike_partial : forall P c c' d a n, good_stream_key (sc_key c) -> sc_dir c = ENCODE -> stream_ctx_copy (Some c) = Some c' ->
  fst (stream_ctx_encode P c d a n) = fst (stream_ctx_encode P c' d a n) /\
  forall r a, fst (stream_ctx_decode P c r a n) = fst (stream_ctx_decode P c' r a n).
Proof. exact copies_agree. Qed.
Print Assumptions C24_copy_behaves_alike_partial.

(* C25 is false: one forged packet, and the genuine packet of the same or a smaller number is refused *)
Theorem C25_forgery_disturbs_refuted : exists P k c1 c2 s forged r, hmac_ok P /\ ctr_ok P /\ aead_ok P /\ good_stream_key k /\
  stream_ctx_create P (Some k) ENCODE s = (Val c1, S s) /\ stream_ctx_create P (Some k) DECODE s = (Val c2, s) /\
  fst (stream_ctx_encode P c1 (Some [x41]) None 1) = Val r /\ fst (stream_ctx_decode P c2 (Some r) None 1) = Val [x41] /\
  let '(x, c3) := stream_ctx_decode P c2 (Some forged) None 7 in x = Null /\ fst (stream_ctx_decode P c3 (Some r) None 1) = Null.
Proof.
  exists toy, toy_stream_key, toy_sender, toy_receiver, 0%nat, {| cr_cipher := AES256_GCM; cr_iv := repeat x00 12; cr_text := Some [x00]; cr_tag := Some (repeat x00 16) |}.
  eexists. split; [exact toy_hmac|]. split; [exact toy_ctr|]. split; [exact toy_aead|]. split; [apply toy_stream_case|].
  split; [vm_compute; reflexivity|]. split; [vm_compute; reflexivity|]. split; [vm_compute; reflexivity|]. split; [vm_compute; reflexivity|].
  vm_compute. split; reflexivity.
Qed.
Print Assumptions C25_forgery_disturbs_refuted.
(* what is true: after any history of packets (forged or not) with numbers below n, the sender's
   packet n decodes; and a packet refused for its number changes nothing *)
Theorem C25_later_packets_decode_partial : forall P k s1 c1 s1' s2 c2 s2' pre d a n r ops,
  hmac_ok P -> ctr_ok P -> aead_ok P -> good_stream_key k ->
  stream_ctx_create P (Some k) ENCODE s1 = (Val c1, s1') -> stream_ctx_create P (Some k) DECODE s2 = (Val c2, s2') ->
  d <> [] -> fst (stream_ctx_encode P (snd (stream_run P c1 pre)) (Some d) a n) = Val r ->
  (forall o, In o ops -> match o with Decode _ _ m => m < n | Encode _ _ _ => True | GoOnWithCopy => True end) -> 0 < n ->
  fst (stream_ctx_decode P (snd (stream_run P c2 ops)) (Some r) a n) = Val d.
Proof. exact genuine_after_anything. Qed.
Print Assumptions C25_later_packets_decode_partial.
Theorem C25_stale_packet_harmless_partial : forall P c d a n, n <= sc_last c \/ d = None -> stream_ctx_decode P c d a n = (Null, c).
Proof. exact early_reject_harmless. Qed.
Print Assumptions C25_stale_packet_harmless_partial.

(* C26 *)
Theorem C26_stream_key_roundtrip : forall k b, good_stream_key k -> stream_key_serialize (Some k) = Val b ->
  stream_key_create_from_buffer (Some b) = Val k.
Proof. exact stream_key_roundtrip. Qed.
Print Assumptions C26_stream_key_roundtrip.
Theorem C26_stream_key_serializes : forall k, good_stream_key k -> blen (sk_evo k) + blen (bytes_of (sk_user k)) + 1000 <= library_limit ->
  exists b, stream_key_serialize (Some k) = Val b.
Proof. exact stream_key_serializes. Qed.
Print Assumptions C26_stream_key_serializes.
Theorem C26_stream_key_parsed : forall b k, stream_key_create_from_buffer b = Val k ->
  good_key (sk_cipher k) /\ within_limit (blen (sk_evo k)) /\ 1 <= sk_ppe k <= 32768 /\ (forall u, sk_user k = Some u -> within_limit (blen u)).
Proof. exact stream_key_parse_good. Qed.
Print Assumptions C26_stream_key_parsed.
(* evolving the key loses its user data *)
Theorem C26_evolution_keeps_user_data_refuted : exists P k c s' c', good_stream_key k /\ stream_ctx_create P (Some k) ENCODE 0%nat = (Val c, s') /\
  c' = snd (stream_ctx_encode P c (Some [x41]) None 3) /\ sk_user (sc_key c) = Some [x75] /\ sk_user (sc_key c') = None.
Proof.
  exists toy, toy_stream_key, toy_sender, 1%nat. eexists. split; [apply toy_stream_case|]. split; [vm_compute; reflexivity|]. split; [reflexivity|].
  split; vm_compute; reflexivity.
Qed.
Print Assumptions C26_evolution_keeps_user_data_refuted.
Example C26_case : exists b, stream_key_serialize (Some toy_stream_key) = Val b /\ stream_key_create_from_buffer (Some b) = Val toy_stream_key.
Proof. exists (rval [] (stream_key_serialize (Some toy_stream_key))). split; vm_compute; reflexivity. Qed.

(* C60: a context is freed exactly when the creator's reference and all taken ones are released *)
Theorem C60_references : forall P k d s c s' ops, good_stream_key k -> stream_ctx_create P (Some k) d s = (Val c, s') -> N.of_nat (length ops) < two64 - 1 ->
  (ref_run c ops = None <-> all_released ops) /\
  (forall c', ref_run c ops = Some c' -> sc_key c' = sc_key c /\ sc_last c' = sc_last c /\ sc_dir c' = sc_dir c /\ sc_iv c' = sc_iv c).
Proof. exact refs_created. Qed.
Print Assumptions C60_references.
(* without a bound on the history: references that were refused do not count, and one is refused
   only when 2^64 - 1 are held *)
Theorem C60_granted : forall P k d s c s' ops, good_stream_key k -> stream_ctx_create P (Some k) d s = (Val c, s') ->
  (ref_run c ops = None <-> exists p q, ops = (p ++ q)%list /\ releases p = 1 + granted c p) /\
  (forall c', ref_run c ops = Some c' -> sc_key c' = sc_key c /\ sc_last c' = sc_last c /\ sc_dir c' = sc_dir c /\ sc_iv c' = sc_iv c /\
     (fst (stream_ctx_ref_up c') = false <-> 1 + granted c ops = releases ops + (two64 - 1))).
Proof. exact refs_all. Qed.
Print Assumptions C60_granted.
Example C60_case : ref_run toy_sender [true; false; true; true; false; false] <> None /\ ref_run toy_sender [true; false; true; true; false; false; false] = None.
Proof. vm_compute. split; [discriminate|reflexivity]. Qed.

(* C15, streams: after any history, data a receiver hands out was authenticated by GCM under the
   key of its sequence number, together with its associated data *)
Theorem C15_stream_decode_authenticated : forall P k s c s' ops r a n d, hmac_ok P -> good_stream_key k -> good_result r ->
  (forall x, a = Some x -> within_limit (blen x)) -> stream_ctx_create P (Some k) DECODE s = (Val c, s') ->
  fst (stream_ctx_decode P (snd (stream_run P c ops)) (Some r) a n) = Val d -> opened P r (ck_data (packet_key P k n)) (bytes_of a) d.
Proof. exact stream_decode_opened. Qed.
Print Assumptions C15_stream_decode_authenticated.
