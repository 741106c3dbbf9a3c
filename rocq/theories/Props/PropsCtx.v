(* C47-C53 and the context-level parts of C15, C40 and C41: contexts, recovery, storage and devices *)
From Verif.Base Require Import Bytes Monad.
From Verif.Model Require Import Buffer Cipher Ecdsa Kdf Prims Engine Identity Node Keys Payload Exchange Packet Ctx.
From Verif.Spec Require Import BufferSpec CodecSpec EngineSpec IdentitySpec KeysSpec MessageSpec CtxSpec.
From Verif.Proofs Require Import BytesFacts CodecFacts EngineFacts IdentityFacts IdentityProps ToyPrims ToyObjects KeysFacts MessageFacts PacketFacts CtxFacts CtxSafety.
From Verif.Props Require Import PropsMessage.
Local Open Scope N_scope.

(* --- devices, root keys and contexts of the test primitives *)
Definition no_device : dev_info := {| di_dev_salt := []; di_system_salt := None; di_msg_proto_id := []; di_srv_comm_id := [] |}.
Definition device (i : byte) : dev_info := oval no_device (dev_info_derive toy (Some [x01; i]) (Some [i; x02])).
Definition demo_root : root_keys := Eval vm_compute in
  val {| rk_signature := no_key; rk_node := demo_key; rk_remote := demo_key |} (root_keys_generate toy 100%nat).
Definition no_ctx : ctx := {| cx_dev := no_device; cx_chain := toy_chain 0; cx_storage := {| sk_local := demo_key; sk_remote := demo_key |}; cx_header_key := demo_key; cx_version := 0 |}.
Definition no_gen : gen_result := {| gr_ctx := no_ctx; gr_recovery_key := demo_key; gr_root_keys := demo_root |}.
Definition demo_gen : gen_result := Eval vm_compute in val no_gen (ctx_gen_with_root_keys toy (Some (device x11)) (Some demo_root) (Some [x61; x62]) 200%nat).
Definition demo_ctx : ctx := Eval vm_compute in gr_ctx demo_gen.
Definition demo_recovery : bytes := Eval vm_compute in val [] (make_recovery toy (Some demo_gen) 300%nat).
Lemma demo_root_made : exists s, root_keys_generate toy 100%nat = (Val demo_root, s).
Proof. eexists. vm_compute. reflexivity. Qed.
Lemma demo_root_good : good_root_keys toy demo_root.
Proof. destruct demo_root_made as (s & H). exact (proj1 (root_keys_generate_good toy _ _ _ toy_rand H)). Qed.
Lemma demo_gen_made : exists s, ctx_gen_with_root_keys toy (Some (device x11)) (Some demo_root) (Some [x61; x62]) 200%nat = (Val demo_gen, s).
Proof. eexists. vm_compute. reflexivity. Qed.
Lemma demo_generated : generated toy (device x11) demo_root [x61; x62] demo_gen.
Proof. destruct demo_gen_made as (s & H). exact (gen_inv toy _ _ _ _ _ _ toy_ec toy_gen toy_sign toy_sha toy_rand demo_root_good H). Qed.
Lemma demo_ctx_good : good_ctx toy demo_ctx.
Proof. exact (proj1 demo_generated). Qed.
Lemma toy_never_fails : never_fails toy.
Proof.
  repeat split.
  - intros i n. discriminate.
  - intros i. cbn [toy p_ec_gen]. discriminate.
  - intros d pub pri m i H. apply toy_pairs in H. cbn [toy p_sign]. destruct H as [H _]. rewrite ?H. discriminate.
Qed.

(* C47 *)
(* what a receiver accepts was opened, with its tag, under the digest of the sender's root and node identifiers *)
Theorem C47_header_opened : forall P b i s q, ctx_read_packet P (Some b) (Some i) (Some s) = Val q -> pa_err (cp_parse q) = E_SUCCESS ->
  sender_verifies P (cp_packet q) s /\
  exists hc plain set, opened P hc (p_sha P SHA256 (id_identifier (ch_root s) ++ id_identifier (ch_node s))) [] plain /\
    exchange_set_create_from_buffer P (Some plain) = Val set /\ pa_set (cp_parse q) = Some set.
Proof. exact ctx_header_opened. Qed.
Print Assumptions C47_header_opened.
(* the two identifiers are joined without a length: they are separated only for root identifiers of one length *)
Theorem C47_separated_partial : forall P c d, blen (id_identifier (ch_root c)) = blen (id_identifier (ch_root d)) ->
  no_collision_256 P (id_identifier (ch_root c) ++ id_identifier (ch_node c))%list (id_identifier (ch_root d) ++ id_identifier (ch_node d))%list ->
  forall e k, gen_header_key P e c = Some k -> gen_header_key P e d = Some k ->
  id_identifier (ch_root c) = id_identifier (ch_root d) /\ id_identifier (ch_node c) = id_identifier (ch_node d).
Proof. exact header_separates. Qed.
Print Assumptions C47_separated_partial.
(* "a sender with other identifiers has another header key": false, whatever the digest does *)
Definition with_ids (c : chain) (r n : bytes) : chain :=
  {| ch_root := {| id_type := id_type (ch_root c); id_identifier := r; id_key := id_key (ch_root c); id_signature := id_signature (ch_root c) |};
     ch_node := {| id_type := id_type (ch_node c); id_identifier := n; id_key := id_key (ch_node c); id_signature := id_signature (ch_node c) |};
     ch_status := ch_status c; ch_cache := ch_cache c |}.
Theorem C47_ambiguous_refuted : ~ (forall P c d e k,
  no_collision_256 P (id_identifier (ch_root c) ++ id_identifier (ch_node c))%list (id_identifier (ch_root d) ++ id_identifier (ch_node d))%list ->
  gen_header_key P e c = Some k -> gen_header_key P e d = Some k ->
  id_identifier (ch_root c) = id_identifier (ch_root d) /\ id_identifier (ch_node c) = id_identifier (ch_node d)).
Proof.
  intros H. destruct (H toy (with_ids (toy_chain 1) [x61] [x62; x63]) (with_ids (toy_chain 1) [x61; x62] [x63]) AES256_GCM
    (oval demo_key (gen_header_key toy AES256_GCM (with_ids (toy_chain 1) [x61] [x62; x63])))) as [E _]; [intros _; reflexivity|vm_compute; reflexivity|vm_compute; reflexivity|discriminate E].
Qed.
Print Assumptions C47_ambiguous_refuted.
Example C47_case : exists k1 k2, gen_header_key toy AES256_GCM (toy_chain 1) = Some k1 /\ gen_header_key toy AES256_GCM (toy_chain 2) = Some k2 /\ k1 <> k2 /\
  blen (id_identifier (ch_root (toy_chain 1))) = blen (id_identifier (ch_root (toy_chain 2))).
Proof. do 2 eexists. split; [vm_compute; reflexivity|]. split; [vm_compute; reflexivity|]. split; [discriminate|vm_compute; reflexivity]. Qed.
Example C47_case_accepts : exists q, ctx_read_packet toy (Some demo_wire) (Some (node_id (public_node (toy_node 3)))) (Some (public_chain (toy_chain 1))) = Val q /\ pa_err (cp_parse q) = E_SUCCESS.
Proof. eexists. split; [vm_compute; reflexivity|vm_compute; reflexivity]. Qed.
(* read as coming from sender 2 it is not accepted *)
Example C47_case_other : exists q, ctx_read_packet toy (Some demo_wire) (Some (node_id (public_node (toy_node 3)))) (Some (public_chain (toy_chain 2))) = Val q /\ pa_err (cp_parse q) <> E_SUCCESS.
Proof. eexists. split; [vm_compute; reflexivity|]. vm_compute. discriminate. Qed.

(* C48 *)
Theorem C48_root_keys : forall P k, ec_ok P -> gen_ok P -> good_root_keys P k ->
  exists b, root_keys_serialize (Some k) = Val b /\ b <> [] /\ blen b <= 2000 /\ root_keys_create_from_buffer P (Some b) = Val k.
Proof. exact root_keys_roundtrip. Qed.
Print Assumptions C48_root_keys.
Theorem C48_generated_root_keys : forall P s k s', rand_ok P -> root_keys_generate P s = (Val k, s') ->
  good_root_keys P k /\ ck_cipher (rk_node k) = AES256_GCM /\ ck_cipher (rk_remote k) = AES256_GCM.
Proof. exact root_keys_generate_good. Qed.
Print Assumptions C48_generated_root_keys.
Theorem C48_storage_keys : forall k, good_storage_keys k ->
  exists b, storage_keys_serialize (Some k) = Val b /\ storage_keys_create_from_buffer (Some b) = Val k.
Proof. exact storage_roundtrip. Qed.
Print Assumptions C48_storage_keys.
(* everything but the packet version, which an imported context has at its default of 4, and the validation status *)
Theorem C48_context_partial : forall P c i, ec_ok P -> gen_ok P -> sha_ok P -> good_ctx P c ->
  exists b, ctx_serialize (Some c) = Some b /\ b <> [] /\ blen b <= 6000 /\ ctx_create_from_buffer P (Some i) (Some b) = Val (restored i c).
Proof. exact ctx_roundtrip. Qed.
Print Assumptions C48_context_partial.
Theorem C48_context_export_partial : forall P c i p s e s', ec_ok P -> gen_ok P -> sha_ok P -> ctr_ok P -> aead_ok P -> good_ctx P c ->
  ctx_export P (Some c) (Some p) s = (Val e, s') -> ctx_import P (Some i) (Some e) (Some p) = Val (restored i c).
Proof. exact ctx_export_import. Qed.
Print Assumptions C48_context_export_partial.
Theorem C48_storage_export : forall P c p s e s', ctr_ok P -> aead_ok P -> good_storage_keys (cx_storage c) ->
  ctx_export_storage_keys P (Some c) (Some p) s = (Val e, s') -> ctx_import_storage_keys P (Some e) (Some p) = Val (cx_storage c).
Proof. exact storage_export_import. Qed.
Print Assumptions C48_storage_export.
(* "an imported context encodes with the version of the exported one": false for version 2 *)
Definition demo_ctx2 : ctx := {| cx_dev := cx_dev demo_ctx; cx_chain := cx_chain demo_ctx; cx_storage := cx_storage demo_ctx; cx_header_key := cx_header_key demo_ctx; cx_version := 2 |}.
Theorem C48_context_version_refuted : ~ (forall P c c', good_ctx P c ->
  (exists b, ctx_serialize (Some c) = Some b /\ ctx_create_from_buffer P (Some (cx_dev c)) (Some b) = Val c') -> cx_version c' = cx_version c).
Proof.
  intros H. assert (G : good_ctx toy demo_ctx2) by exact demo_ctx_good. destruct (ctx_roundtrip toy demo_ctx2 (cx_dev demo_ctx2) toy_ec toy_gen toy_sha G) as (b & A & _ & _ & B).
  specialize (H toy demo_ctx2 _ G (ex_intro _ b (conj A B))). discriminate H.
Qed.
Print Assumptions C48_context_version_refuted.
Example C48_case : good_ctx toy demo_ctx /\ good_root_keys toy demo_root /\ good_storage_keys (cx_storage demo_ctx) /\
  (exists e s, ctx_export toy (Some demo_ctx) (Some [x70]) 7%nat = (Val e, s) /\ ctx_import toy (Some (device x12)) (Some e) (Some [x71]) = Null) /\
  exists e s, ctx_export_storage_keys toy (Some demo_ctx) (Some [x70]) 7%nat = (Val e, s).
Proof.
  split; [exact demo_ctx_good|]. split; [exact demo_root_good|]. split; [exact (proj1 (proj2 (proj2 (proj2 demo_ctx_good))))|]. split.
  - do 2 eexists. split; [vm_compute; reflexivity|vm_compute; reflexivity].
  - do 2 eexists. vm_compute. reflexivity.
Qed.

(* C49: the new device may choose another identifier and another node *)
Theorem C49_recovery_restores : forall P i1 id1 s0 g s0' s d s' i2 id2 s2 g2 s2',
  ec_ok P -> gen_ok P -> sign_ok P -> sha_ok P -> rand_ok P -> ctr_ok P -> aead_ok P ->
  ctx_gen_new P (Some i1) (Some id1) s0 = (Val g, s0') -> make_recovery P (Some g) s = (Val d, s') ->
  ctx_gen_import_recovery P (Some d) (Some (gr_recovery_key g)) = Val (gr_root_keys g) /\
  (ctx_gen_with_recovery P (Some i2) (Some d) (Some (gr_recovery_key g)) (Some id2) s2 = (Val g2, s2') ->
    generated P i2 (gr_root_keys g) id2 g2 /\ gr_recovery_key g2 = gr_recovery_key g /\
    id_key (ch_root (cx_chain (gr_ctx g2))) = id_key (ch_root (cx_chain (gr_ctx g))) /\
    sk_remote (cx_storage (gr_ctx g2)) = sk_remote (cx_storage (gr_ctx g))).
Proof. exact new_recovered. Qed.
Print Assumptions C49_recovery_restores.
(* nothing but the operating system can make it fail *)
Theorem C49_recovery_succeeds : forall P i1 id1 s0 g s0' i2 id2 s s2,
  never_fails P -> ec_ok P -> gen_ok P -> sign_ok P -> sha_ok P -> rand_ok P -> ctr_ok P -> aead_ok P ->
  ctx_gen_new P (Some i1) (Some id1) s0 = (Val g, s0') -> good_dev_info P i2 -> 0 < blen id2 < 128 ->
  exists d s', make_recovery P (Some g) s = (Val d, s') /\
  exists g2 s2', ctx_gen_with_recovery P (Some i2) (Some d) (Some (gr_recovery_key g)) (Some id2) s2 = (Val g2, s2').
Proof. exact new_recovery_succeeds. Qed.
Print Assumptions C49_recovery_succeeds.
(* with the recovery key exported under a passphrase *)
Theorem C49_passphrase : forall P g p s e s', ctr_ok P -> aead_ok P -> good_key (gr_recovery_key g) ->
  export_recovery_key_passphrase P (Some g) (Some p) s = (Val e, s') ->
  import_recovery_key_passphrase P (Some e) (Some p) = Val (gr_recovery_key g) /\
  forall i d id s2, ctx_gen_with_passphrase P (Some i) (Some e) (Some p) (Some d) (Some id) s2 =
                    ctx_gen_with_recovery P (Some i) (Some d) (Some (gr_recovery_key g)) (Some id) s2.
Proof. exact passphrase_same. Qed.
Print Assumptions C49_passphrase.
Example C49_case : exists g s0 d s g2 s2 e s3, ctx_gen_new toy (Some (device x11)) (Some [x61; x62]) 0%nat = (Val g, s0) /\ make_recovery toy (Some g) 50%nat = (Val d, s) /\
  ctx_gen_with_recovery toy (Some (device x12)) (Some d) (Some (gr_recovery_key g)) (Some [x63]) 60%nat = (Val g2, s2) /\
  export_recovery_key_passphrase toy (Some g) (Some [x70]) 70%nat = (Val e, s3).
Proof. do 8 eexists. split; [vm_compute; reflexivity|]. split; [vm_compute; reflexivity|]. split; [vm_compute; reflexivity|vm_compute; reflexivity]. Qed.
Example C49_case_device : good_dev_info toy (device x12).
Proof. exists [x01; x12], [x12; x02]. split; [apply dev_derive_Some; [vm_compute; reflexivity|exact toy_sha]|vm_compute; split; congruence]. Qed.

(* C50 *)
Theorem C50_generation_safe : forall P i k sk id s,
  fst (ctx_gen_new P i id s) <> UB /\ fst (ctx_gen_new_with_sig_key P i sk id s) <> UB /\ fst (ctx_gen_with_root_keys P i k id s) <> UB.
Proof. exact generation_safe. Qed.
Print Assumptions C50_generation_safe.
Theorem C50_import_safe : forall P d k e p, good_key k -> ctx_gen_import_recovery P d (Some k) <> UB /\ import_recovery_key_passphrase P e p <> UB.
Proof. exact imports_safe. Qed.
Print Assumptions C50_import_safe.
(* "recovery returns NULL for an identifier that is too long": it dereferences NULL *)
Theorem C50_recovery_refuted : ~ (forall P i d k id s, good_key k -> fst (ctx_gen_with_recovery P (Some i) (Some d) (Some k) (Some id) s) <> UB).
Proof.
  intros H. apply (H toy (device x12) demo_recovery (gr_recovery_key demo_gen) (repeat x61 128) 0%nat); [vm_compute; reflexivity|]. vm_compute. reflexivity.
Qed.
Print Assumptions C50_recovery_refuted.
(* what holds: recovery crashes only when the recovery data is right and building the context fails *)
Theorem C50_recovery_partial : forall P i d k id s, good_key k ->
  fst (ctx_gen_with_recovery P (Some i) (Some d) (Some k) (Some id) s) = UB ->
  exists keys, ctx_gen_import_recovery P (Some d) (Some k) = Val keys /\ fst (ctx_gen_with_root_keys P (Some i) (Some keys) (Some id) s) = Null.
Proof. exact recovery_crash. Qed.
Print Assumptions C50_recovery_partial.
Theorem C50_passphrase_partial : forall P i e p d id s, ctr_ok P -> aead_len_ok P ->
  fst (ctx_gen_with_passphrase P (Some i) (Some e) (Some p) (Some d) (Some id) s) = UB ->
  exists k keys, good_key k /\ import_recovery_key_passphrase P (Some e) (Some p) = Val k /\
    ctx_gen_import_recovery P (Some d) (Some k) = Val keys /\ fst (ctx_gen_with_root_keys P (Some i) (Some keys) (Some id) s) = Null.
Proof. exact passphrase_crash. Qed.
Print Assumptions C50_passphrase_partial.
(* generation with a long identifier does return NULL *)
Example C50_case : fst (ctx_gen_new toy (Some (device x11)) (Some (repeat x61 128)) 0%nat) = Null /\
  exists g s, ctx_gen_new toy (Some (device x11)) (Some (repeat x61 127)) 0%nat = (Val g, s).
Proof. split; [vm_compute; reflexivity|]. do 2 eexists. vm_compute. reflexivity. Qed.
Example C50_case_wrong_data : good_key demo_key /\ fst (ctx_gen_with_recovery toy (Some (device x12)) (Some demo_recovery) (Some demo_key) (Some (repeat x61 128)) 0%nat) = Null.
Proof. split; [vm_compute; reflexivity|vm_compute; reflexivity]. Qed.

(* C51 *)
Theorem C51_localize : forall P k i st, root_keys_localize P (Some k) (Some i) = Some st ->
  sk_local st = {| ck_cipher := ck_cipher (rk_node k); ck_data := p_sha P SHA256 (ck_data (rk_node k) ++ bytes_of (di_system_salt i)) |} /\
  sk_remote st = rk_remote k.
Proof. exact localize_Some. Qed.
Print Assumptions C51_localize.
Theorem C51_localize_succeeds : forall P k i, sha_ok P -> good_key (rk_remote k) ->
  exists st, root_keys_localize P (Some k) (Some i) = Some st /\ good_storage_keys st.
Proof. exact localize_succeeds. Qed.
Print Assumptions C51_localize_succeeds.
(* two devices: one remote key, and one local key only if they have one system salt *)
Theorem C51_two_devices : forall P k i j si sj, root_keys_localize P (Some k) (Some i) = Some si -> root_keys_localize P (Some k) (Some j) = Some sj ->
  sk_remote si = sk_remote sj /\ (di_system_salt i = di_system_salt j -> si = sj) /\
  (no_collision_256 P (ck_data (rk_node k) ++ bytes_of (di_system_salt i))%list (ck_data (rk_node k) ++ bytes_of (di_system_salt j))%list ->
   sk_local si = sk_local sj -> bytes_of (di_system_salt i) = bytes_of (di_system_salt j)).
Proof. exact two_devices. Qed.
Print Assumptions C51_two_devices.
Example C51_case : exists si sj, root_keys_localize toy (Some demo_root) (Some (device x11)) = Some si /\ root_keys_localize toy (Some demo_root) (Some (device x12)) = Some sj /\ sk_local si <> sk_local sj.
Proof. do 2 eexists. split; [vm_compute; reflexivity|]. split; [vm_compute; reflexivity|]. vm_compute. discriminate. Qed.

(* C52 *)
Theorem C52_local_roundtrip : forall P c pt s r s', ctr_ok P -> aead_ok P -> pt <> [] -> ck_cipher (sk_local (cx_storage c)) = AES256_GCM ->
  ctx_cipher_local P (Some c) (Some pt) s = (Val r, s') -> ctx_decipher_local P (Some c) (Some r) = Val pt.
Proof. exact local_roundtrip. Qed.
Print Assumptions C52_local_roundtrip.
Theorem C52_remote_roundtrip : forall P c pt s r s', ctr_ok P -> aead_ok P -> pt <> [] -> ck_cipher (sk_remote (cx_storage c)) = AES256_GCM ->
  ctx_cipher_remote P (Some c) (Some pt) s = (Val r, s') -> ctx_decipher_remote P (Some c) (Some r) = Val pt.
Proof. exact remote_roundtrip. Qed.
Print Assumptions C52_remote_roundtrip.
(* an answer means that the tag verified under the storage key *)
Theorem C52_local_authenticated : forall P c r v, good_storage_keys (cx_storage c) -> good_result r -> ctx_decipher_local P (Some c) (Some r) = Val v ->
  opened P r (ck_data (sk_local (cx_storage c))) [] v.
Proof. exact local_opened. Qed.
Print Assumptions C52_local_authenticated.
Theorem C52_remote_authenticated : forall P c r v, good_storage_keys (cx_storage c) -> good_result r -> ctx_decipher_remote P (Some c) (Some r) = Val v ->
  opened P r (ck_data (sk_remote (cx_storage c))) [] v.
Proof. exact remote_opened. Qed.
Print Assumptions C52_remote_authenticated.
Theorem C52_unauthenticated_rejected : forall P c r, cr_cipher r = AES256_CTR -> ctx_decipher_local P (Some c) (Some r) = Null /\ ctx_decipher_remote P (Some c) (Some r) = Null.
Proof. exact storage_rejects_ctr. Qed.
Print Assumptions C52_unauthenticated_rejected.
(* the storage keys of generated contexts are such keys *)
Theorem C52_generated_ciphers : forall P i id s g s', rand_ok P -> sha_ok P -> ec_ok P -> gen_ok P -> sign_ok P -> ctx_gen_new P (Some i) (Some id) s = (Val g, s') ->
  good_storage_keys (cx_storage (gr_ctx g)) /\ ck_cipher (sk_local (cx_storage (gr_ctx g))) = AES256_GCM /\ ck_cipher (sk_remote (cx_storage (gr_ctx g))) = AES256_GCM.
Proof. exact new_ciphers. Qed.
Print Assumptions C52_generated_ciphers.
(* an empty value is enciphered but can never be deciphered: C14_empty_plaintext_refuted *)
Definition demo_secret : cipher_result := Eval vm_compute in
  val {| cr_cipher := AES256_GCM; cr_iv := []; cr_text := None; cr_tag := None |} (ctx_cipher_local toy (Some demo_ctx) (Some [x68; x69]) 5%nat).
Example C52_case : (exists s, ctx_cipher_local toy (Some demo_ctx) (Some [x68; x69]) 5%nat = (Val demo_secret, s)) /\ ck_cipher (sk_local (cx_storage demo_ctx)) = AES256_GCM /\
  ck_cipher (sk_remote (cx_storage demo_ctx)) = AES256_GCM /\ good_result demo_secret /\
  ctx_decipher_remote toy (Some demo_ctx) (Some demo_secret) = Null /\
  ctx_decipher_local toy (Some demo_ctx) (Some {| cr_cipher := cr_cipher demo_secret; cr_iv := cr_iv demo_secret; cr_text := Some [x68; x6a]; cr_tag := cr_tag demo_secret |}) = Null.
Proof.
  split; [eexists; vm_compute; reflexivity|]. split; [reflexivity|]. split; [reflexivity|]. split; [|split; vm_compute; reflexivity].
  split; [|vm_compute; discriminate]. split; [reflexivity|]. eexists. split; reflexivity.
Qed.

(* C53 *)
Theorem C53_derive : forall P salt sid i, dev_info_derive P (Some salt) (Some sid) = Some i -> sha_ok P -> derived_from P salt sid i.
Proof. exact dev_derive_Some. Qed.
Print Assumptions C53_derive.
Theorem C53_derive_succeeds : forall P salt sid, sha_ok P -> exists i, dev_info_derive P (Some salt) (Some sid) = Some i.
Proof. exact dev_derive_succeeds. Qed.
Print Assumptions C53_derive_succeeds.
(* the contents are determined by the salt and the system id *)
Theorem C53_deterministic : forall P salt sid i j, derived_from P salt sid i -> derived_from P salt sid j -> i = j.
Proof. exact derived_unique. Qed.
Print Assumptions C53_deterministic.
Theorem C53_copy : forall P salt sid i, derived_from P salt sid i -> within_limit (blen salt) -> dev_info_copy (Some i) = Some i.
Proof. exact dev_copy_derived. Qed.
Print Assumptions C53_copy.
Theorem C53_create_new : forall P sid s i s', sha_ok P -> rand_ok P -> dev_info_create_new P (Some sid) s = (Val i, s') ->
  exists salt, blen salt = 64 /\ derived_from P salt sid i.
Proof. exact dev_new_Val. Qed.
Print Assumptions C53_create_new.
Example C53_case : derived_from toy [x01; x11] [x11; x02] (device x11) /\ (exists i s, dev_info_create_new toy (Some [x05]) 9%nat = (Val i, s)) /\
  di_msg_proto_id (device x11) <> di_srv_comm_id (device x11) /\ di_msg_proto_id (device x11) <> di_msg_proto_id (device x12).
Proof.
  split; [apply dev_derive_Some; [vm_compute; reflexivity|exact toy_sha]|]. split; [do 2 eexists; vm_compute; reflexivity|]. split; vm_compute; discriminate.
Qed.

(* C40 and C41 with contexts: encode, send the bytes, parse and decode *)
Theorem C40_contexts_decode_partial : forall P c pl ns s e s' b,
  ec_ok P -> gen_ok P -> ecdh_ok P -> sign_ok P -> ctr_ok P -> aead_ok P -> sha_ok P -> rand_ok P ->
  good_ctx P c -> good_payload pl -> key_ids_ok ns -> ctx_encode_packet P (Some c) (Some pl) (Some ns) s = (Val e, s') -> packet_serialize (Some (en_packet e)) = Some b ->
  forall n kp rk c' s1 s2, distinct_recipients ns -> In (Some n) ns -> nd_keypair n = Some kp -> engine_pair P rk -> ek_pub rk = ek_pub (kp_key kp) ->
  same_public (cx_chain c') (nd_chain n) -> di_msg_proto_id (cx_dev c') = nd_dev_id n -> same_public s1 (cx_chain c) -> chain_copy (Some s1) = Some s2 ->
  exists q, ctx_parse_packet P (Some c') (Some b) (Some s1) = Val q /\ pa_status (cp_parse q) = SIG_VALID /\ pa_err (cp_parse q) = E_SUCCESS /\
    ctx_decode_packet P (Some c') (Some q) (Some rk) = Val (decode_success pl (en_key e)).
Proof. exact ctx_messages. Qed.
Print Assumptions C40_contexts_decode_partial.
Theorem C41_context_stranger : forall P c pl ns s e s' b, ec_ok P -> gen_ok P -> sign_ok P -> ctr_ok P -> aead_ok P -> sha_ok P -> rand_ok P ->
  good_ctx P c -> good_payload pl -> key_ids_ok ns -> ctx_encode_packet P (Some c) (Some pl) (Some ns) s = (Val e, s') -> packet_serialize (Some (en_packet e)) = Some b ->
  forall c' s1 s2, (forall n, In (Some n) ns -> node_id n <> id_identifier (ch_node (cx_chain c'))) -> same_public s1 (cx_chain c) -> chain_copy (Some s1) = Some s2 ->
  exists q, ctx_parse_packet P (Some c') (Some b) (Some s1) = Val q /\ pa_err (cp_parse q) = ERROR_NODE_NOT_FOUND /\
    pa_exchange (cp_parse q) = None /\ pa_set (cp_parse q) = None /\ pa_payload (cp_parse q) = None.
Proof. exact ctx_stranger. Qed.
Print Assumptions C41_context_stranger.
Example C40_case_contexts : exists e s b, ctx_encode_packet toy (Some demo_ctx) (Some demo_payload) (Some demo_nodes) 400%nat = (Val e, s) /\ packet_serialize (Some (en_packet e)) = Some b /\
  chain_copy (Some (public_chain (cx_chain demo_ctx))) <> None /\ same_public (public_chain (cx_chain demo_ctx)) (cx_chain demo_ctx).
Proof. do 3 eexists. split; [vm_compute; reflexivity|]. split; [vm_compute; reflexivity|]. split; [vm_compute; discriminate|apply public_same]. Qed.

(* C15: what is accepted from an attacker was opened with its tag *)
Theorem C15_payload_authenticated : forall P c c' b s q rk d, ctr_ok P -> aead_len_ok P -> ctx_parse_packet P (Some c) (Some b) (Some s) = Val q ->
  ctx_decode_packet P (Some c') (Some q) (Some rk) = Val d -> de_err d = E_SUCCESS ->
  sender_verifies P (cp_packet q) s /\ exists r k plain pl, de_key d = Some k /\ de_payload d = Some pl /\
    opened P r (ck_data k) [] plain /\ payload_create_from_buffer (Some plain) = Some pl /\ pa_payload (cp_parse q) = Some r.
Proof. exact ctx_payload_opened. Qed.
Print Assumptions C15_payload_authenticated.
Theorem C15_recovery_authenticated : forall P d k v, good_key k -> ctx_gen_import_recovery P (Some d) (Some k) = Val v ->
  exists r plain, good_result r /\ d = result_wire r /\ opened P r (ck_data k) [] plain /\ root_keys_create_from_buffer P (Some plain) = Val v.
Proof. exact recovery_opened. Qed.
Print Assumptions C15_recovery_authenticated.
Example C15_case_recovery : good_key (gr_recovery_key demo_gen) /\ ctx_gen_import_recovery toy (Some demo_recovery) (Some (gr_recovery_key demo_gen)) = Val demo_root.
Proof. split; [vm_compute; reflexivity|vm_compute; reflexivity]. Qed.
Example C15_case_payload : exists e s b q d, ctx_encode_packet toy (Some demo_ctx) (Some demo_payload) (Some demo_nodes) 400%nat = (Val e, s) /\ packet_serialize (Some (en_packet e)) = Some b /\
  ctx_parse_packet toy (Some {| cx_dev := {| di_dev_salt := []; di_system_salt := None; di_msg_proto_id := nd_dev_id (toy_node 3); di_srv_comm_id := [] |};
    cx_chain := toy_chain 3; cx_storage := cx_storage demo_ctx; cx_header_key := demo_key; cx_version := 4 |}) (Some b) (Some (public_chain (cx_chain demo_ctx))) = Val q /\
  ctx_decode_packet toy (Some {| cx_dev := {| di_dev_salt := []; di_system_salt := None; di_msg_proto_id := nd_dev_id (toy_node 3); di_srv_comm_id := [] |};
    cx_chain := toy_chain 3; cx_storage := cx_storage demo_ctx; cx_header_key := demo_key; cx_version := 4 |}) (Some q) (Some demo_private) = Val d /\
  de_err d = E_SUCCESS /\ de_payload d = Some demo_payload.
Proof. do 5 eexists. repeat (split; [vm_compute; reflexivity|]). vm_compute. reflexivity. Qed.
