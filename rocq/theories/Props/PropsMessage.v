(* C38-C46: message packets, payloads and key exchanges *)
From Verif.Base Require Import Bytes Monad.
From Verif.Model Require Import Buffer Cipher Ecdsa Prims Engine Identity Node Payload Exchange Packet Ctx.
From Verif.Spec Require Import BufferSpec CodecSpec EngineSpec IdentitySpec MessageSpec.
From Verif.Proofs Require Import BytesFacts CodecFacts EngineFacts IdentityFacts IdentityProps ToyPrims ToyObjects MessageFacts PacketFacts.
Local Open Scope N_scope.

(* --- a sender (chain 1), two recipients (nodes 2 and 3) and a message *)
Definition demo_payload : payload := {| py_meta := {| me_ttl := 60; me_bor := 7; me_tag := [x74; x61; x67]; me_type := 1000 |}; py_body := [x68; x69] |}.
Definition demo_header_key : cipher_key := Eval vm_compute in oval {| ck_cipher := AES256_CTR; ck_data := [] |} (gen_header_key toy AES256_GCM (toy_chain 1)).
Definition demo_key : cipher_key := {| ck_cipher := AES256_GCM; ck_data := repeat x07 32 |}.
Definition demo_nodes : list (option node) := [Some (public_node (toy_node 2)); Some (public_node (toy_node 3))].
Definition demo_encode (v : N) := packet_create_from_components toy (Some demo_header_key) (Some demo_key) (Some (toy_key 50)) (Some demo_payload) (Some demo_nodes) (Some (toy_chain 1)) v 900%nat.
Definition no_packet : packet := {| pt_version := 0; pt_content := []; pt_signature := {| es_curve := P521; es_digest := SHA256; es_sig := [] |} |}.
Definition demo_packet : packet := Eval vm_compute in val no_packet (demo_encode 4).
Definition demo_wire : bytes := Eval vm_compute in oval [] (packet_serialize (Some demo_packet)).
Lemma demo_made : exists st, demo_encode 4 = (Val demo_packet, st).
Proof. eexists. vm_compute. reflexivity. Qed.
Lemma demo_wire_eq : packet_serialize (Some demo_packet) = Some demo_wire.
Proof. vm_compute. reflexivity. Qed.
Lemma demo_good_payload : good_payload demo_payload.
Proof. repeat split; vm_compute; congruence. Qed.
Lemma demo_exchange_key : engine_pair toy (toy_key 50).
Proof. split; [apply toy_key_made|]. vm_compute. discriminate. Qed.
Definition demo_private : ec_key := Eval vm_compute in kp_key (toy_keypair 3 7).
Lemma demo_private_pair : engine_pair toy demo_private.
Proof. split; [apply (made_import toy demo_private (oval [] (ek_pri demo_private)) true); vm_compute; reflexivity|vm_compute; discriminate]. Qed.
Lemma demo_sender_key : engine_key toy (id_key (ch_node (toy_chain 1))).
Proof. exact (made_import toy _ (oval [] (ek_pri (id_key (ch_node (toy_chain 1))))) true ltac:(vm_compute; reflexivity)). Qed.
Lemma demo_ids : key_ids_ok demo_nodes.
Proof. intros n kp [E|[E|[]]] K; injection E as <-; vm_compute in K; injection K as <-; vm_compute; reflexivity. Qed.
Lemma demo_distinct : distinct_recipients demo_nodes.
Proof.
  intros l1 n l2 m E I. destruct l1 as [|x l1]; [destruct I|]. injection E as <- E. destruct l1 as [|y l1].
  - injection E as <- _. destruct I as [I|[]]. injection I as <-. vm_compute. discriminate.
  - injection E as <- E. destruct l1; discriminate.
Qed.
Lemma public_same c : same_public (public_chain c) c.
Proof. repeat split. Qed.

(* C38 *)
Theorem C38_packet_roundtrip : forall p b, good_packet p -> packet_serialize (Some p) = Some b ->
  b = packet_wire p /\ packet_create_from_buffer (Some b) = Val p.
Proof. exact wire_roundtrip. Qed.
Print Assumptions C38_packet_roundtrip.
Theorem C38_packet_serializes : forall p, good_packet p -> blen (packet_wire p) <= library_limit -> packet_serialize (Some p) = Some (packet_wire p).
Proof. exact packet_serialize_ok. Qed.
Print Assumptions C38_packet_serializes.
(* version, curve and length are checked; in version 2 the curve is the low nibble *)
Theorem C38_packet_rejects : forall b0 b1 t,
  ~ supported_version (b2n b0) \/ (if b2n b0 =? 2 then b2n b1 mod 16 else b2n b1) <> 0 \/ blen t <= 143 ->
  packet_create_from_buffer (Some (b0 :: b1 :: t)) = Null.
Proof. exact wire_rejects. Qed.
Print Assumptions C38_packet_rejects.
(* no byte string is read out of bounds *)
Theorem C38_packet_safe : forall b, packet_create_from_buffer b <> UB.
Proof. exact packet_parse_safe. Qed.
Print Assumptions C38_packet_safe.
Example C38_case : good_packet demo_packet /\ packet_serialize (Some demo_packet) = Some demo_wire /\ blen demo_wire = 545.
Proof.
  split; [|split; [exact demo_wire_eq|vm_compute; reflexivity]]. split; [right; right; vm_compute; reflexivity|]. split; [vm_compute; discriminate|].
  split; [split; vm_compute; lia|vm_compute; reflexivity].
Qed.
Example C38_case_rejects : packet_create_from_buffer (Some (x05 :: tl demo_wire)) = Null /\ packet_create_from_buffer (Some (x04 :: x10 :: skipn 2 demo_wire)) = Null /\
  packet_create_from_buffer (Some (firstn 145 demo_wire)) = Null.
Proof. vm_compute. auto. Qed.

(* C39 *)
Theorem C39_valid_means_verified : forall P keygen p i s r, parse_result_from_packet P keygen (Some p) i (Some s) = Val r ->
  pa_status r = SIG_VALID -> sender_verifies P p s.
Proof. exact parse_valid. Qed.
Print Assumptions C39_valid_means_verified.
Theorem C39_bad_signature : forall P keygen p i s, ~ sender_verifies P p s ->
  exists r, parse_result_from_packet P keygen (Some p) i (Some s) = Val r /\ pa_status r = SIG_INVALID /\ pa_err r <> E_SUCCESS /\
    pa_exchange r = None /\ pa_set r = None /\ pa_payload r = None.
Proof. exact bad_signature. Qed.
Print Assumptions C39_bad_signature.
(* success: the header was opened under the header key, with its tag, and holds this exchange *)
Theorem C39_success_authenticated : forall P keygen p i s r, (forall c k, keygen c s = Some k -> good_key k) ->
  parse_result_from_packet P keygen (Some p) (Some i) (Some s) = Val r -> pa_err r = E_SUCCESS ->
  sender_verifies P p s /\ pa_status r = SIG_VALID /\
  exists hc hk plain set l x, keygen AES256_GCM s = Some hk /\ opened P hc (ck_data hk) [] plain /\
    exchange_set_create_from_buffer P (Some plain) = Val set /\ pa_set r = Some set /\ full_set set l /\
    pa_exchange r = Some x /\ kx_id x = i /\ first_with i l x.
Proof. exact success_authenticated. Qed.
Print Assumptions C39_success_authenticated.
Theorem C39_parse_safe : forall P keygen p i s, (forall c k, keygen c s = Some k -> good_key k) -> parse_result_from_packet P keygen p i (Some s) <> UB.
Proof. exact parse_safe. Qed.
Print Assumptions C39_parse_safe.
Example C39_case : (exists r, parse_result_from_packet toy (gen_header_key toy) (Some demo_packet) (Some (node_id (toy_node 3))) (Some (toy_chain 1)) = Val r /\ pa_err r = E_SUCCESS /\ pa_status r = SIG_VALID) /\
  ~ sender_verifies toy demo_packet (toy_chain 4).
Proof. split; [eexists; split; [vm_compute; reflexivity|split; reflexivity]|unfold sender_verifies; vm_compute; discriminate]. Qed.

(* C40: any keys, payload, sender, list of recipients with distinct node identifiers, version and
   random choices; the receiver knows the public part of the sender *)
Theorem C40_recipients_decode_partial : forall P keygen hk pk ek pl rs s v st st' p b,
  ec_ok P -> gen_ok P -> ecdh_ok P -> sign_ok P -> ctr_ok P -> aead_ok P ->
  ck_cipher hk = AES256_GCM -> good_key pk -> ck_cipher pk = AES256_GCM -> engine_pair P ek -> engine_key P (id_key (ch_node s)) ->
  good_payload pl -> key_ids_ok rs ->
  packet_create_from_components P (Some hk) (Some pk) (Some ek) (Some pl) (Some rs) (Some s) v st = (Val p, st') ->
  packet_serialize (Some p) = Some b ->
  forall n kp rk s1 s2 rc, distinct_recipients rs -> In (Some n) rs ->
  nd_keypair n = Some kp -> engine_pair P rk -> ek_pub rk = ek_pub (kp_key kp) ->
  keygen AES256_GCM s1 = Some hk -> same_public s1 s -> same_public s2 s -> same_public rc (nd_chain n) ->
  exists q r, packet_create_from_buffer (Some b) = Val q /\
    parse_result_from_packet P keygen (Some q) (Some (node_id n)) (Some s1) = Val r /\ pa_status r = SIG_VALID /\ pa_err r = E_SUCCESS /\
    decode_result_from_parse_result P q (Some r) (nd_dev_id n) (Some rk) rc (Some s2) = Val (decode_success pl pk).
Proof. exact encoded_decodes_all. Qed.
Print Assumptions C40_recipients_decode_partial.
Definition demo_recipient : node := Eval vm_compute in public_node (toy_node 3).
Example C40_case : exists s1 s2 rc, In (Some demo_recipient) demo_nodes /\ option_map kp_key (nd_keypair demo_recipient) <> None /\ engine_pair toy demo_private /\
    option_map (fun kp => ek_pub (kp_key kp)) (nd_keypair demo_recipient) = Some (ek_pub demo_private) /\
    gen_header_key toy AES256_GCM s1 = Some demo_header_key /\ same_public s1 (toy_chain 1) /\ same_public s2 (toy_chain 1) /\ same_public rc (nd_chain demo_recipient) /\
    distinct_recipients demo_nodes /\ key_ids_ok demo_nodes /\ good_payload demo_payload /\ engine_pair toy (toy_key 50) /\ engine_key toy (id_key (ch_node (toy_chain 1))) /\
    (exists st, demo_encode 4 = (Val demo_packet, st)) /\ packet_serialize (Some demo_packet) = Some demo_wire.
Proof.
  exists (public_chain (toy_chain 1)), (toy_chain 1), (toy_chain 3).
  split; [right; left; vm_compute; reflexivity|]. split; [vm_compute; discriminate|]. split; [exact demo_private_pair|]. split; [vm_compute; reflexivity|].
  split; [vm_compute; reflexivity|]. split; [apply public_same|]. split; [repeat split|]. split; [repeat split; vm_compute; reflexivity|].
  split; [exact demo_distinct|]. split; [exact demo_ids|]. split; [exact demo_good_payload|]. split; [exact demo_exchange_key|]. split; [exact demo_sender_key|].
  split; [exact demo_made|exact demo_wire_eq].
Qed.
(* what the hypothesis on identifiers excludes: of two recipients with one node identifier but
   different keys, only the first can decode *)
Definition twin : node := {| nd_dev_id := nd_dev_id (toy_node 2); nd_chain := nd_chain (toy_node 2); nd_keypair := Some (toy_keypair 2 8); nd_status := S_UNKNOWN; nd_cache := None |}.
Theorem C40_same_identifier_refuted : exists p st r d,
  packet_create_from_components toy (Some demo_header_key) (Some demo_key) (Some (toy_key 50)) (Some demo_payload) (Some [Some (toy_node 2); Some twin]) (Some (toy_chain 1)) 4 900%nat = (Val p, st) /\
  parse_result_from_packet toy (gen_header_key toy) (Some p) (Some (node_id twin)) (Some (toy_chain 1)) = Val r /\
  decode_result_from_parse_result toy p (Some r) (nd_dev_id twin) (Some (kp_key (toy_keypair 2 8))) (nd_chain twin) (Some (toy_chain 1)) = Val d /\ de_err d <> E_SUCCESS.
Proof. do 4 eexists. split; [vm_compute; reflexivity|]. split; [vm_compute; reflexivity|]. split; [vm_compute; reflexivity|]. cbn. discriminate. Qed.
Print Assumptions C40_same_identifier_refuted.

(* C41 *)
Theorem C41_stranger_not_found : forall P keygen hk pk ek pl rs s v st st' p b,
  ec_ok P -> gen_ok P -> sign_ok P -> ctr_ok P -> aead_ok P ->
  ck_cipher hk = AES256_GCM -> good_key pk -> ck_cipher pk = AES256_GCM -> engine_pair P ek -> engine_key P (id_key (ch_node s)) ->
  good_payload pl -> key_ids_ok rs ->
  packet_create_from_components P (Some hk) (Some pk) (Some ek) (Some pl) (Some rs) (Some s) v st = (Val p, st') ->
  packet_serialize (Some p) = Some b ->
  forall i s1, (forall n, In (Some n) rs -> node_id n <> i) -> keygen AES256_GCM s1 = Some hk -> same_public s1 s ->
  exists q r, packet_create_from_buffer (Some b) = Val q /\ parse_result_from_packet P keygen (Some q) (Some i) (Some s1) = Val r /\
    pa_err r = ERROR_NODE_NOT_FOUND /\ pa_exchange r = None /\ pa_set r = None /\ pa_payload r = None.
Proof. exact encoded_stranger. Qed.
Print Assumptions C41_stranger_not_found.
Example C41_case : (forall n, In (Some n) demo_nodes -> node_id n <> node_id (toy_node 4)) /\
  exists r, parse_result_from_packet toy (gen_header_key toy) (Some demo_packet) (Some (node_id (toy_node 4))) (Some (toy_chain 1)) = Val r /\ pa_err r = ERROR_NODE_NOT_FOUND.
Proof.
  split; [|eexists; split; [vm_compute; reflexivity|reflexivity]]. intros n [E|[E|[]]]; injection E as <-; vm_compute; discriminate.
Qed.

(* C42 *)
Theorem C42_recipients_checked : forall P hk pk ek pl rs s v st p st',
  packet_create_from_components P hk pk ek pl rs s v st = (Val p, st') ->
  exists l, rs = Some l /\ l <> [] /\ forall r, In r l -> exists n, r = Some n /\ fst (node_verify_signature_chain P n) = true.
Proof. exact components_verified. Qed.
Print Assumptions C42_recipients_checked.
(* for nodes that were made, copied, verified and rotated by the library's functions the check
   means that both signatures verify (see C35) *)
Theorem C42_recipients_verified : forall P hk pk ek pl l s v st p st',
  (forall n, In (Some n) l -> lawful_node P n) ->
  packet_create_from_components P hk pk ek pl (Some l) s v st = (Val p, st') ->
  l <> [] /\ forall r, In r l -> exists n, r = Some n /\ node_truth P n = true.
Proof. exact recipients_verified. Qed.
Print Assumptions C42_recipients_verified.
(* and a node whose signatures have never been checked is judged by its signatures alone *)
Theorem C42_fresh_recipients : forall P hk pk ek pl l s v st p st',
  (forall n, In (Some n) l -> nd_cache n = None /\ ch_cache (nd_chain n) = None) ->
  packet_create_from_components P hk pk ek pl (Some l) s v st = (Val p, st') ->
  l <> [] /\ forall r, In r l -> exists n, r = Some n /\ node_truth P n = true.
Proof. exact fresh_recipients. Qed.
Print Assumptions C42_fresh_recipients.
Example C42_case : lawful_node toy (toy_node 2) /\
  fst (packet_create_from_components toy (Some demo_header_key) (Some demo_key) (Some (toy_key 50)) (Some demo_payload)
    (Some [Some (toy_node 2); Some {| nd_dev_id := [x01]; nd_chain := toy_chain 3; nd_keypair := Some (toy_keypair 2 7); nd_status := S_UNKNOWN; nd_cache := None |}]) (Some (toy_chain 1)) 4 900%nat) = Null.
Proof.
  split; [|vm_compute; reflexivity]. exists (nd_dev_id (toy_node 2)), (toy_root 2), (toy_node_id 2), (Some (toy_keypair 2 7)), (toy_chain 2), (toy_node 2), [].
  split; [reflexivity|]. split; [reflexivity|]. split; [constructor|]. split; [reflexivity|]. split.
  - apply (states_ok _ regular_keypairb); [exact regular_keypairb_ok|vm_compute; reflexivity].
  - apply collision_freeb_ok. vm_compute. reflexivity.
Qed.

(* C43: full statement refuted by the version byte (and by the high nibble of byte 1 in version 2) *)
Theorem C43_version_byte_refuted : exists b b' p p', b <> b' /\ skipn 1 b = skipn 1 b' /\
  packet_create_from_buffer (Some b) = Val p /\ packet_create_from_buffer (Some b') = Val p' /\
  sender_verifies toy p (toy_chain 1) /\ sender_verifies toy p' (toy_chain 1).
Proof.
  exists demo_wire, (x03 :: tl demo_wire). do 2 eexists. split; [vm_compute; discriminate|]. split; [reflexivity|]. split; [vm_compute; reflexivity|]. split; [vm_compute; reflexivity|].
  split; unfold sender_verifies; vm_compute; reflexivity.
Qed.
Print Assumptions C43_version_byte_refuted.
Definition demo_wire_2 : bytes := Eval vm_compute in oval [] (packet_serialize (Some (val no_packet (demo_encode 2)))).
Theorem C43_curve_nibble_refuted : exists b b' p p', b <> b' /\ nth_error b 0 = nth_error b' 0 /\ skipn 2 b = skipn 2 b' /\
  packet_create_from_buffer (Some b) = Val p /\ packet_create_from_buffer (Some b') = Val p' /\
  sender_verifies toy p (toy_chain 1) /\ sender_verifies toy p' (toy_chain 1).
Proof.
  exists demo_wire_2, (x02 :: x70 :: skipn 2 demo_wire_2). do 2 eexists. split; [vm_compute; discriminate|]. split; [reflexivity|]. split; [reflexivity|]. split; [vm_compute; reflexivity|]. split; [vm_compute; reflexivity|].
  split; unfold sender_verifies; vm_compute; reflexivity.
Qed.
Print Assumptions C43_curve_nibble_refuted.
(* all other bytes are covered: two byte strings with the same signature block (the last 143 bytes)
   and a valid signature of the same sender agree from byte 2 on; byte 1 is 0 outside version 2 *)
Theorem C43_signature_covers_content_partial : forall b b' p p' s u u' sg P,
  packet_create_from_buffer (Some b) = Val p -> packet_create_from_buffer (Some b') = Val p' ->
  b = (u ++ sg)%list -> b' = (u' ++ sg)%list -> blen sg = 143 ->
  sender_verifies P p s -> sender_verifies P p' s ->
  no_forgery P (pt_signature p) (id_key (ch_node s)) (pt_content p) (pt_content p') ->
  exists a a' c c' t, b = a :: c :: t /\ b' = a' :: c' :: t /\ (b2n a <> 2 -> c = x00) /\ (b2n a = 2 -> b2n c mod 16 = 0).
Proof. exact same_content. Qed.
Print Assumptions C43_signature_covers_content_partial.
(* a changed content byte of the demo packet is refused *)
Example C43_case : exists p p', packet_create_from_buffer (Some demo_wire) = Val p /\ sender_verifies toy p (toy_chain 1) /\
  packet_create_from_buffer (Some (firstn 20 demo_wire ++ x00 :: skipn 21 demo_wire)%list) = Val p' /\ ~ sender_verifies toy p' (toy_chain 1) /\
  no_forgery toy (pt_signature p) (id_key (ch_node (toy_chain 1))) (pt_content p) (pt_content p').
Proof.
  do 2 eexists. split; [vm_compute; reflexivity|]. split; [unfold sender_verifies; vm_compute; reflexivity|]. split; [vm_compute; reflexivity|].
  split; [unfold sender_verifies; vm_compute; discriminate|]. intros _. vm_compute. discriminate.
Qed.

(* C44 *)
Theorem C44_payload_roundtrip : forall p b, good_payload p -> payload_serialize (Some p) = Some b -> payload_create_from_buffer (Some b) = Some p.
Proof. exact payload_roundtrip. Qed.
Print Assumptions C44_payload_roundtrip.
Theorem C44_payload_serializes : forall p, good_payload p -> blen (me_tag (py_meta p)) + blen (py_body p) + 200 <= library_limit ->
  exists b, payload_serialize (Some p) = Some b.
Proof. exact payload_serialize_ok. Qed.
Print Assumptions C44_payload_serializes.
Example C44_case : good_payload demo_payload /\ good_payload {| py_meta := {| me_ttl := 2 ^ 64 - 1; me_bor := 2 ^ 63; me_tag := [x00]; me_type := 65535 |}; py_body := repeat x00 300 |} /\
  exists b, payload_serialize (Some demo_payload) = Some b /\ blen b = 20.
Proof. split; [exact demo_good_payload|]. split; [repeat split; vm_compute; congruence|]. eexists. split; vm_compute; reflexivity. Qed.

(* C45 *)
Theorem C45_exchange_set_roundtrip : forall P s l b, importable P (xs_sender s) -> full_set s l -> Forall good_exchange l ->
  exchange_set_serialize (Some s) = Some b ->
  exchange_set_create_from_buffer P (Some b) = Val {| xs_sender := public_key (xs_sender s); xs_items := xs_items s |}.
Proof. exact (fun P s l b A B C D => proj2 (proj2 (proj2 (exchange_set_wire P s l b A B C D)))). Qed.
Print Assumptions C45_exchange_set_roundtrip.
Theorem C45_find_first : forall s l i x, full_set s l -> first_with i l x -> good_exchange x -> exchange_fits x ->
  exchange_set_find (Some s) (Some i) = Val x.
Proof. exact set_find_first. Qed.
Print Assumptions C45_find_first.
Theorem C45_find_none : forall s l i, full_set s l -> (forall y, In y l -> kx_id y <> i) -> exchange_set_find (Some s) (Some i) = Null.
Proof. exact set_find_none. Qed.
Print Assumptions C45_find_none.
Definition demo_exchange (i : byte) (t : byte) : key_exchange :=
  {| kx_id := [i]; kx_key_id := 2 ^ 64 - 1; kx_text := {| cr_cipher := AES256_CTR; cr_iv := repeat x01 16; cr_text := Some [t; t]; cr_tag := None |} |}.
Definition demo_set : exchange_set := {| xs_sender := toy_key 50; xs_items := map Some [demo_exchange x01 x0a; demo_exchange x02 x0b; demo_exchange x02 x0c] |}.
Example C45_case : importable toy (xs_sender demo_set) /\ full_set demo_set [demo_exchange x01 x0a; demo_exchange x02 x0b; demo_exchange x02 x0c] /\
  Forall good_exchange [demo_exchange x01 x0a; demo_exchange x02 x0b; demo_exchange x02 x0c] /\ (exists b, exchange_set_serialize (Some demo_set) = Some b) /\
  first_with [x02] [demo_exchange x01 x0a; demo_exchange x02 x0b; demo_exchange x02 x0c] (demo_exchange x02 x0b) /\ exchange_fits (demo_exchange x02 x0b).
Proof.
  split; [apply (engine_key_importable toy _ toy_ec toy_gen (toy_key_made 50))|]. split; [reflexivity|]. split.
  { assert (G : forall i t, good_exchange (demo_exchange i t)) by (intros i t; split; [discriminate|]; split; [reflexivity|]; split; [split; reflexivity|discriminate]). auto. }
  split; [eexists; vm_compute; reflexivity|]. split; [|split; [vm_compute; discriminate|split; vm_compute; congruence]].
  exists [demo_exchange x01 x0a], [demo_exchange x02 x0c]. split; [reflexivity|]. split; [reflexivity|]. intros y [<-|[]]. discriminate.
Qed.

(* C46: sender chain s and recipient r as the sender knows them, s' and r' as the receiver does *)
Theorem C46_packet_key_agrees : forall P s r ek pk psk v st x st' kp rk s' r' kp' ek',
  ec_ok P -> gen_ok P -> ecdh_ok P -> ctr_ok P -> aead_ok P ->
  exchange_create_with_packet_key P (Some s) (Some r) (Some ek) (Some pk) psk v st = (Val x, st') ->
  good_key pk -> engine_pair P ek -> ek_pub ek' = ek_pub ek ->
  nd_keypair r = Some kp -> engine_pair P rk -> ek_pub (kp_key kp) = ek_pub rk -> nd_keypair r' = Some kp' -> kp_key kp' = rk ->
  nd_dev_id r' = nd_dev_id r -> ek_pub (id_key (ch_root s')) = ek_pub (id_key (ch_root s)) ->
  ek_pub (id_key (ch_root (nd_chain r'))) = ek_pub (id_key (ch_root (nd_chain r))) ->
  exchange_derive_packet_key P (Some s') (Some r') (Some ek') (Some x) psk v = Val pk.
Proof. exact exchange_agrees. Qed.
Print Assumptions C46_packet_key_agrees.
Definition psk_case (psk psk' : option bytes) (v : N) : res cipher_key :=
  match exchange_create_with_packet_key toy (Some (toy_chain 1)) (Some (public_node (toy_node 3))) (Some (toy_key 50)) (Some demo_key) psk v 5%nat with
  | (Val x, _) => exchange_derive_packet_key toy (Some (public_chain (toy_chain 1))) (Some (toy_node 3)) (Some (public_key (toy_key 50))) (Some x) psk' v
  | _ => UB
  end.
(* every version, with and without pre-shared key; with the wrong one the result differs *)
Example C46_case : psk_case None None 2 = Val demo_key /\ psk_case None None 3 = Val demo_key /\ psk_case None None 4 = Val demo_key /\
  psk_case (Some [x70]) (Some [x70]) 4 = Val demo_key /\ psk_case (Some [x70]) (Some [x71]) 4 <> Val demo_key.
Proof. split; [|split; [|split; [|split]]]; vm_compute; congruence. Qed.
