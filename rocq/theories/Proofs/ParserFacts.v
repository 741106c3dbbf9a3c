(* Deserializers misuse no memory and give well-formed objects. *)
From Verif.Base Require Import Bytes Monad.
From Verif.Model Require Import Buffer Cipher Ecdsa Kdf Prims Engine Proto Identity Node Stream TransportPacket EcdhCipher Handshake Transport Keys Payload Exchange Packet Ctx.
From Verif.Spec Require Import BufferSpec CodecSpec CopySpec.
From Verif.Proofs Require Import BytesFacts BufferFacts BufferProps CodecFacts EngineFacts SafetyFacts.
From Verif.Proofs Require StreamFacts TransportPacketFacts PacketFacts CtxSafety.
From Coq Require Import ZifyBool ZifyNat ZifyN.
Ltac Zify.zify_post_hook ::= Z.div_mod_to_equations.
Local Open Scope N_scope.

Lemma section_real b st ln r : buffer_copy_section b st ln = Some r -> real r /\ blen r = ln.
Proof.
  intros H. apply copy_section_Some in H. destruct H as (_ & L & S). split; [|exact L]. unfold real, within_limit. rewrite L. unfold section_ok, MAX_BUFFER_SIZE in S. unfold library_limit. lia.
Qed.
Lemma create_real s b : buffer_create s = Some b -> real b.
Proof. intros H. apply buffer_create_Some in H. destruct H as [-> H]. apply size_ok_limit, H. Qed.
Lemma none_set {A} (Q : A -> Prop) : if_set Q None.
Proof. intros x E. discriminate. Qed.
Lemma some_set {A} (Q : A -> Prop) x : Q x -> if_set Q (Some x).
Proof. intros H y E. apply Some_inj in E. subst y. exact H. Qed.

Lemma result_made b x : cipher_result_from_buffer b = Val x -> made_cipher_result x.
Proof.
  destruct b as [b|]; [|discriminate]. unfold cipher_result_from_buffer. destruct (blen b =? 0); [discriminate|]. intros H.
  apply rbind_Val in H. destruct H as (b0 & _ & H). apply rbind_Val in H. destruct H as (mode & _ & H). cbv zeta in H.
  destruct (_ <? _) in H; [discriminate|]. apply rbind_Val in H. destruct H as (iv & S1 & H). apply lift_Val' in S1. apply section_real in S1. destruct S1 as [_ L].
  apply rbind_Val in H. destruct H as (tag & St & H). apply rbind_Val in H. destruct H as (text & Sx & H). apply lift_Val' in H.
  assert (T : if_set real text).
  { destruct (_ <? _) in Sx; [|apply Val_inj in Sx; subst; apply none_set]. apply rbind_Val in Sx. destruct Sx as (t & S3 & Sx). apply lift_Val' in S3. apply section_real in S3. apply Val_inj in Sx. subst text. apply some_set, S3. }
  unfold cipher_result_create in H. destruct (negb _); [discriminate|]. destruct (_ && _) in H; [discriminate|]. destruct mode; cbn [is_authenticated] in St.
  - apply rbind_Val in St. destruct St as (t & S3 & St). apply lift_Val' in S3. apply section_real in S3. apply Val_inj in St. subst tag. destruct (negb _); [discriminate|]. apply Some_inj in H. subst x.
    split; [|exact T]. split; [exact L|]. exists t. split; [reflexivity|exact (proj2 S3)].
  - apply Val_inj in St. subst tag. apply Some_inj in H. subst x. split; [|exact T]. split; [exact L|reflexivity].
Qed.
Lemma result_parses : parses cipher_result_from_buffer made_cipher_result.
Proof. split; [reflexivity|]. split; [exact result_parse_safe|exact result_made]. Qed.
Lemma key_made b x : cipher_key_from_buffer b = Val x -> made_cipher_key x.
Proof.
  destruct b as [b|]; [|discriminate]. unfold cipher_key_from_buffer. destruct (_ <=? _); [discriminate|]. intros H. step1 H. step1 H. destruct (_ <? _) in H; [discriminate|].
  step1 H. step1 H. unfold cipher_key_create in H. apply lift_Val' in S1. apply section_real in S1. destruct S1 as [_ L]. destruct (negb _); [discriminate|]. apply Some_inj in H. subst x.
  unfold made_cipher_key. cbn [ck_data]. rewrite L. apply key_len_32.
Qed.
Lemma key_parses : parses cipher_key_from_buffer made_cipher_key.
Proof. split; [reflexivity|]. split; [exact key_parse_safe|exact key_made]. Qed.
Lemma sig_made b x : ecdsa_result_create_from_buffer b = Val x -> made_signature x.
Proof.
  destruct b as [b|]; [|discriminate]. unfold ecdsa_result_create_from_buffer. destruct (_ <? _); [discriminate|]. intros H. step1 H. cbv zeta in H.
  destruct (curve_find _); [|discriminate]. destruct (digest_find _); [|discriminate]. step1 H. destruct (_ <=? _) in H; [discriminate|]. step1 H. step1 H.
  apply lift_Val' in S1. apply section_real in S1. apply Some_inj in H. subst x. exact (proj1 S1).
Qed.
Lemma sig_parses : parses ecdsa_result_create_from_buffer made_signature.
Proof. split; [reflexivity|]. split; [exact sig_parse_safe|exact sig_made]. Qed.
Lemma kdf_made b x : kdf_meta_create_with_buffer b = Val x -> made_kdf_meta x.
Proof.
  unfold kdf_meta_create_with_buffer. intros H. step1 H. destruct (_ =? _); [discriminate|]. destruct b as [b|]; [|discriminate]. destruct (_ <? _) in H; [discriminate|].
  step1 H. step1 H. step1 H. step1 H. apply lift_Val' in S2. apply section_real in S2. destruct S2 as [R L]. apply lift_Val' in S1.
  assert (K : ka_kind a1 <> KDF_HMAC_SHA2).
  { unfold find_kdf_algo in S1. repeat match type of S1 with context [if ?c then _ else _] => destruct c end; try discriminate; apply Some_inj in S1; subst a1; discriminate. }
  unfold kdf_meta_create in H. cbv zeta in H.
  assert (x = {| km_algo := a1; km_salt := Some a2; km_info := None |} /\ blen a2 = ka_salt_size a1).
  { split; [|exact L]. destruct (ka_kind a1); [| |destruct (K eq_refl)]; (destruct (negb _); [discriminate|]); apply Some_inj in H; exact (eq_sym H). }
  destruct H0 as [-> _]. split; [apply some_set, R|]. split; [apply none_set|]. cbn [km_algo km_salt]. destruct (ka_kind a1); [| |destruct (K eq_refl)]; exists a2; split; try reflexivity; exact L.
Qed.
Lemma kdf_parses : parses kdf_meta_create_with_buffer made_kdf_meta.
Proof. split; [reflexivity|]. split; [exact kdf_parse_safe|exact kdf_made]. Qed.

Section Parsers.
Context (P : prims).
Lemma pub_real c o q : ec_pub_key_to_buffer c o = Some q -> real q.
Proof. unfold ec_pub_key_to_buffer. apply create_real. Qed.
Lemma pri_real d q : ec_pri_key_to_buffer d = Some q -> real q.
Proof. unfold ec_pri_key_to_buffer. apply create_real. Qed.
Lemma create_key_made c p q k : real p -> if_set real q -> ec_key_create c (Some p) q = Some k -> made_ec_key k.
Proof. intros A B H. apply Some_inj in H. subst k. split; [exact A|exact B]. Qed.
Lemma import_made b p k : ec_key_import P b p = Some k -> made_ec_key k.
Proof.
  destruct b as [b|]; [|discriminate]. unfold ec_key_import. destruct (if p then _ else _) as [[pub der]|]; [|discriminate]. destruct (p_inf P pub); [discriminate|].
  destruct (ec_pub_key_to_buffer P521 pub) as [q|] eqn:Q; [|discriminate]. apply pub_real in Q. destruct der as [d|].
  - destruct (ec_pri_key_to_buffer d) as [r|] eqn:R; [|discriminate]. apply pri_real in R. apply create_key_made; [exact Q|apply some_set, R].
  - apply create_key_made; [exact Q|apply none_set].
Qed.
Lemma opt_sig_made o x : (match o with Some s => rbind (ecdsa_result_create_from_buffer (Some s)) (fun r => Val (Some r)) | None => Val None end) = Val x -> if_set made_signature x.
Proof.
  destruct o as [s|]; intros H; [|apply Val_inj in H; subst x; apply none_set]. step1 H. apply Val_inj in H. subst x. apply some_set, (sig_made _ _ S).
Qed.
Lemma identity_made m x : identity_create_from_proto P m = Val x -> made_identity x.
Proof.
  destruct m as [m|]; [|discriminate]. unfold identity_create_from_proto. destruct (pi_identifier m); [|discriminate]. destruct (pi_sig_key m); [|discriminate]. destruct (pi_type m); [|discriminate].
  intros H. step1 H. cbv zeta in H. step1 H. step1 H. step1 H. apply lift_Val' in S. apply create_real in S. apply lift_Val' in S0. apply import_made in S0. apply opt_sig_made in S1.
  unfold identity_create, MAX_IDENTIFIER_LEN in H. destruct (128 <=? blen a) eqn:E; [discriminate|]. apply Some_inj in H. subst x.
  split; [exact S|]. split; [cbn [id_identifier]; lia|]. split; [exact S0|exact S1].
Qed.
Lemma chain_made m x : chain_create_from_proto P m = Val x -> made_chain x.
Proof.
  destruct m as [m|]; [|discriminate]. unfold chain_create_from_proto. intros H. step1 H. step1 H. step1 H. apply identity_made in S, S0. apply Some_inj in H. subst x.
  split; [exact S|]. split; [exact S0|apply none_set].
Qed.
Lemma unpack_parses {M A} (unpack : bytes -> option M) (f : option M -> res A) (made : A -> Prop) :
  (forall m, f m <> UB) -> (forall m x, f m = Val x -> made x) ->
  parses (fun b => match b with None => Null | Some x => rbind (lift (unpack x)) (fun m => f (Some m)) end) made.
Proof.
  intros S V. split; [reflexivity|]. split.
  - intros [b|]; [|discriminate]. destruct (unpack b); [apply S|discriminate].
  - intros [b|] x; [|discriminate]. destruct (unpack b); [|discriminate]. apply V.
Qed.
Lemma identity_parses : parses (identity_create_from_buffer P) made_identity.
Proof. exact (unpack_parses pb_identity_unpack (identity_create_from_proto P) made_identity (identity_parse_safe P) identity_made). Qed.
Lemma chain_parses : parses (chain_create_from_buffer P) made_chain.
Proof. exact (unpack_parses pb_chain_unpack (chain_create_from_proto P) made_chain (chain_parse_safe P) chain_made). Qed.
Lemma keypair_safe m : keypair_create_from_proto P m <> UB.
Proof.
  destruct m as [m|]; [|discriminate]. unfold keypair_create_from_proto. destruct (pk_ec_key m); [|discriminate]. destruct (pk_identifier m); [|discriminate].
  apply rsafe_bind; [apply rsafe_lift|]. intros k _. apply rsafe_bind; [|intros; apply rsafe_lift]. destruct (pk_signature m); [|discriminate]. apply rsafe_bind; [apply sig_parse_safe|discriminate].
Qed.
Lemma keypair_made m x : keypair_create_from_proto P m = Val x -> made_keypair x.
Proof.
  destruct m as [m|]; [|discriminate]. unfold keypair_create_from_proto. destruct (pk_ec_key m); [|discriminate]. destruct (pk_identifier m); [|discriminate].
  intros H. step1 H. step1 H. step1 H. apply lift_Val' in S. apply import_made in S. apply opt_sig_made in S0. apply Some_inj in H. subst x. split; [exact S|exact S0].
Qed.
Lemma keypair_parses : parses (keypair_create_from_buffer P) made_keypair.
Proof. exact (unpack_parses pb_keypair_unpack (keypair_create_from_proto P) made_keypair keypair_safe keypair_made). Qed.
Lemma node_safe m : node_create_from_proto P m <> UB.
Proof.
  destruct m as [m|]; [|discriminate]. unfold node_create_from_proto. destruct (pn_devid m); [|discriminate]. apply rsafe_bind; [apply rsafe_lift|]. intros d _.
  apply rsafe_bind; [apply chain_parse_safe|]. intros c _. apply rsafe_bind; [|intros; apply rsafe_lift]. destruct (pn_keypair m); [|discriminate]. apply rsafe_bind; [apply keypair_safe|discriminate].
Qed.
Lemma node_made m x : node_create_from_proto P m = Val x -> made_node x.
Proof.
  destruct m as [m|]; [|discriminate]. unfold node_create_from_proto. destruct (pn_devid m); [|discriminate]. intros H. step1 H. step1 H. step1 H. step1 H.
  apply lift_Val' in S. apply create_real in S. apply chain_made in S0. apply Some_inj in H. subst x. split; [exact S|]. split; [exact S0|]. split; [|apply none_set].
  cbn [nd_keypair]. destruct (pn_keypair m); [|apply Val_inj in S1; subst a1; apply none_set]. step1 S1. apply keypair_made in S2. apply Val_inj in S1. subst a1. apply some_set, S2.
Qed.
Lemma node_parses : parses (node_create_from_buffer P) made_node.
Proof. exact (unpack_parses pb_node_unpack (node_create_from_proto P) made_node node_safe node_made). Qed.

Lemma storage_made m x : storage_keys_create_from_proto m = Val x -> made_storage_keys x.
Proof.
  destruct m as [m|]; [|discriminate]. unfold storage_keys_create_from_proto. destruct (ps_local m); [|discriminate]. destruct (ps_remote m); [|discriminate]. destruct (negb _); [discriminate|].
  intros H. step1 H. step1 H. step1 H. unfold cipher_key_from_protobytes in S, S0. apply key_made in S, S0. apply Some_inj in H. subst x. split; [exact S|exact S0].
Qed.
Lemma storage_parses : parses storage_keys_create_from_buffer made_storage_keys.
Proof.
  split; [reflexivity|]. split; (intros [b|]; [|discriminate]); unfold storage_keys_create_from_buffer; [apply CtxSafety.storage_parse_safe|exact (storage_made _)].
Qed.
Lemma root_keys_parses : parses (root_keys_create_from_buffer P) made_root_keys.
Proof.
  split; [reflexivity|]. split; [exact (CtxSafety.root_parse_safe P)|]. intros [b|] x; [|discriminate]. unfold root_keys_create_from_buffer. intros H. step1 H. destruct (pr_node a); [|discriminate]. destruct (pr_remote a); [|discriminate].
  destruct (_ <? _) in H; [discriminate|]. step1 H. step1 H. step1 H. step1 H. unfold cipher_key_from_protobytes in S0, S1. apply key_made in S0. apply lift_Val' in S2. apply import_made in S2. destruct a1 as [r|]; [|discriminate].
  apply Some_inj in H. subst x. split; [exact S2|]. split; [exact S0|]. cbn [rk_remote]. unfold rtry in S1. destruct (cipher_key_from_buffer _) eqn:E; try discriminate. apply Val_inj in S1. apply Some_inj in S1. subst r. exact (key_made _ _ E).
Qed.
Lemma stream_key_parses : parses stream_key_create_from_buffer made_stream_key.
Proof.
  split; [reflexivity|]. split; [exact StreamFacts.stream_key_parse_safe|]. intros b x H. apply StreamFacts.stream_key_parse_good in H. destruct H as (A & B & C & D).
  split; [unfold good_key, made_cipher_key, blen in *; lia|]. split; [exact B|]. split; [exact C|exact D].
Qed.
Lemma payload_made b x : payload_create_from_buffer b = Some x -> made_payload x.
Proof.
  destruct b as [b|]; [|discriminate]. unfold payload_create_from_buffer. destruct (pb_payload_unpack b); [|discriminate]. cbv zeta. destruct (buffer_create (obytes _)) as [t|] eqn:T; [|discriminate].
  cbn [packet_meta_create]. destruct (buffer_create (pp_body _)) as [y|] eqn:Y; [|discriminate]. intros H. apply Some_inj in H. subst x. apply create_real in T, Y.
  split; [|exact Y]. split; [exact T|]. cbn [py_meta me_type]. apply N.mod_lt. discriminate.
Qed.
Lemma payload_parses : parses (fun b => lift (payload_create_from_buffer b)) made_payload.
Proof.
  split; [reflexivity|]. split; [intros; apply rsafe_lift|]. intros b x H. apply lift_Val' in H. exact (payload_made _ _ H).
Qed.
Lemma exchange_safe m : key_exchange_create_with_proto m <> UB.
Proof.
  unfold key_exchange_create_with_proto. destruct (_ || _); [discriminate|]. apply rsafe_bind; [apply result_parse_safe|]. intros t _. apply rsafe_bind; [apply rsafe_lift|]. intros; apply rsafe_lift.
Qed.
Lemma exchange_made m x : key_exchange_create_with_proto m = Val x -> made_key_exchange x.
Proof.
  unfold key_exchange_create_with_proto. destruct (_ || _); [discriminate|]. intros H. step1 H. step1 H. step1 H. apply result_made in S. apply lift_Val' in S0. apply create_real in S0.
  apply Some_inj in H. subst x. split; [exact S0|exact S].
Qed.
Lemma items_safe l : exchange_items_from_proto l <> UB.
Proof.
  induction l as [|m l IH]; [discriminate|]. cbn [exchange_items_from_proto]. apply rsafe_bind; [apply exchange_safe|]. intros x _. apply rsafe_bind; [exact IH|discriminate].
Qed.
Lemma items_made l : forall r, exchange_items_from_proto l = Val r -> length r = length l /\ Forall (if_set made_key_exchange) r /\ Forall (fun o => o <> None) r.
Proof.
  induction l as [|m l IH]; intros r H.
  - apply Val_inj in H. subst r. split; [reflexivity|]. split; constructor.
  - cbn [exchange_items_from_proto] in H. step1 H. step1 H. apply Val_inj in H. subst r. destruct (IH _ S0) as (A & B & C). apply exchange_made in S.
    split; [cbn [length]; rewrite A; reflexivity|]. split; constructor; try assumption; [apply some_set, S|discriminate].
Qed.
Lemma set_parses : parses (exchange_set_create_from_buffer P) (fun s => made_exchange_set s /\ all_set s).
Proof.
  split; [reflexivity|]. split; (intros [b|]; [|discriminate]); unfold exchange_set_create_from_buffer.
  - destruct (pb_exchange_set_unpack b) as [m|]; [|discriminate]. cbn [lift rbind]. unfold exchange_set_create_with_proto. cbv zeta. destruct (_ || _); [discriminate|]. destruct (negb _); [discriminate|].
    apply rsafe_bind; [apply items_safe|]. intros i _. apply rsafe_bind; [apply rsafe_lift|]. intros; apply rsafe_lift.
  - intros x H. step1 H. unfold exchange_set_create_with_proto in H. cbv zeta in H. destruct (_ || _) eqn:Z; [discriminate|]. destruct (negb _); [discriminate|].
    step1 H. step1 H. step1 H. apply Some_inj in H. subst x. apply items_made in S0. destruct S0 as (A & B & C). apply lift_Val' in S1. apply import_made in S1.
    split; [split; [exact S1|exact B]|]. split; [|exact C]. cbn [xs_items]. intros ->. cbn [length] in A. rewrite <- A in Z. discriminate.
Qed.
Lemma packet_parses : parses packet_create_from_buffer made_packet.
Proof.
  split; [reflexivity|]. split; [exact PacketFacts.packet_parse_safe|]. intros [b|] x; [|discriminate]. unfold packet_create_from_buffer.
  destruct (_ <=? _); [discriminate|]. intros H. step1 H. cbv zeta in H. destruct (_ || _) in H; [discriminate|]. step1 H. step1 H. destruct (_ <=? _) in H; [discriminate|]. step1 H. step1 H. apply sig_made in S3.
  destruct (_ || _) in H; [discriminate|]. step1 H. step1 H. apply lift_Val' in S4. apply section_real in S4. apply Some_inj in H. subst x. split; [exact (proj1 S4)|exact S3].
Qed.
Lemma tpacket_parses : parses tpacket_create_from_buffer (fun p => made_tpacket p /\ if_set real (tp_network p)).
Proof.
  split; [reflexivity|]. split; [exact TransportPacketFacts.packet_parse_safe|]. intros [b|] x; [|discriminate]. unfold tpacket_create_from_buffer. intros H. step1 H. destruct a as [meta st]. cbv zeta in H.
  destruct (_ <=? _) in H; [discriminate|]. step1 H. step1 H. step1 H. step1 H. apply lift_Val' in S1. apply section_real in S1. apply lift_Val' in S2. apply Some_inj in S2. subst a1.
  apply lift_Val' in S3. apply buffer_copy_Some in S3. destruct S3 as [E L]. apply Some_inj in E. subst a2. apply Val_inj in H. subst x.
  split; [|apply some_set, L]. split; [exact (proj1 S1)|]. cbn [set_network set_mac tp_mac]. destruct (_ =? 0) in S0; [apply Val_inj in S0; subst a; apply none_set|].
  step1 S0. apply lift_Val' in S2. apply section_real in S2. apply Val_inj in S0. subst a. apply some_set, (proj1 S2).
Qed.
Lemma root_key_made m k : root_key_from_proto m = Some k -> made_root_key k.
Proof.
  unfold root_key_from_proto. destruct (prk_secret m); [|discriminate]. destruct (prk_cipher m); [|discriminate]. destruct (prk_send m); [|discriminate]. destruct (prk_recv m); [|discriminate].
  destruct (buffer_create _); [|discriminate]. destruct (cipher_find _); [|discriminate]. unfold root_key_create. destruct (blen _ =? key_len _) eqn:E; [|discriminate]. intros H. apply Some_inj in H. subst k.
  apply N.eqb_eq in E. unfold made_root_key. cbn [rk_secret]. rewrite E. apply key_len_32.
Qed.
Lemma ctx_parsed i b x : ctx_create_from_buffer P i b = Val x -> made_chain (cx_chain x) /\ made_storage_keys (cx_storage x) /\ made_cipher_key (cx_header_key x) /\ i = Some (cx_dev x).
Proof.
  destruct i as [i|]; [|discriminate]. destruct b as [b|]; [|discriminate]. unfold ctx_create_from_buffer, ctx_create_from_proto. destruct (pb_ctx_unpack b) as [m|]; [|discriminate].
  destruct (px_chain m); [|discriminate]. destruct (px_storage m); [|discriminate]. intros H. step1 H. step1 H. step1 H. apply chain_made in S. apply storage_made in S0.
  unfold ctx_create in H. destruct (gen_header_key P default_cipher a) as [k|] eqn:K; [|discriminate]. apply Some_inj in H. subst x. split; [exact S|]. split; [exact S0|]. split; [|reflexivity].
  cbn [cx_header_key]. unfold gen_header_key in K. destruct (sha2 _ _ _ _); [|discriminate]. unfold cipher_key_create in K. destruct (blen _ =? key_len _) eqn:E; [|discriminate]. apply Some_inj in K. subst k.
  apply N.eqb_eq in E. unfold made_cipher_key. cbn [ck_data]. rewrite E. apply key_len_32.
Qed.
End Parsers.
