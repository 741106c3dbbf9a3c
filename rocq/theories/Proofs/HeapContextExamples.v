(* Concrete arguments for the theorems of Props/PropsHeapContext.v, and what goes wrong with some. *)
From Verif.Base Require Import Bytes Monad.
From Verif.Model Require Import Buffer Cipher Ecdsa Kdf Prims Engine Keys Fingerprint Identity Node Stream Handshake Ctx Proto Heap HeapObjects HeapMessages HeapParse HeapEngine HeapProtocol HeapGenerate HeapContext.
From Verif.Spec Require Import HeapSpec HeapObjectSpec CopySpec HeapParseSpec HeapEngineSpec HeapProtocolSpec HeapGenerateSpec HeapContextSpec.
From Verif.Proofs Require Import ToyPrims ToyObjects BytesFacts HeapFacts HeapObjectFacts HeapExamples HeapEngineFacts HeapEngineExamples HeapProtocolExamples HeapGenerateExamples.
Local Open Scope N_scope.

(* ---- running an operation that changes something ---- *)
Definition changes_as {A} (args : list (list cell)) (owned : list cell) (test : A -> bool) (op : H A) : Prop :=
  exists h a h', heap_ok h /\ in_memory h owned /\ all_in_memory h args /\ separate args owned /\ op never h = Some (a, h') /\ test a = true.
Lemma nodup_across {A} (l r : list A) x : NoDup (l ++ r) -> In x l -> ~ In x r.
Proof.
  induction l as [|y m IH]; intros D I; [destruct I|]. cbn in D. inversion D as [|? ? N D']; subst. destruct I as [->|I]; [|exact (IH D' I)].
  intros J. apply N. apply in_or_app. right. exact J.
Qed.
Lemma separate_ok args owned : apart (owned :: args) = true ->
  let h := heap_of (concat (owned :: args)) in heap_ok h /\ in_memory h owned /\ all_in_memory h args /\ separate args owned.
Proof.
  intros D h. split; [apply heap_of_ok|]. pose proof (apart_ok _ D) as M. split; [exact (Forall_inv M)|]. split; [exact (Forall_inv_tail M)|].
  apply distinct_ok in D. cbn [concat] in D. rewrite map_app in D. apply Forall_forall. intros a I b B O.
  refine (nodup_across _ _ b D O _). apply in_map_iff in B. destruct B as (c & <- & B). apply in_map. apply in_concat. exists a. split; assumption.
Qed.
Lemma changes_by {A} args owned test (op : H A) : apart (owned :: args) = true ->
  match op never (heap_of (concat (owned :: args))) with Some (a, _) => test a | None => false end = true -> changes_as args owned test op.
Proof.
  intros D E. destruct (op never (heap_of (concat (owned :: args)))) as [[a h']|] eqn:W; [|discriminate E]. destruct (separate_ok _ _ D) as (A1 & A2 & A3 & A4).
  exists (heap_of (concat (owned :: args))), a, h'. repeat (split; [assumption|]). exact E.
Qed.
Lemma change_crashes_by {A} args owned fails (op : H A) : apart (owned :: args) = true ->
  match op fails (heap_of (concat (owned :: args))) with None => true | _ => false end = true -> change_crashes args owned op.
Proof.
  intros D E. destruct (separate_ok _ _ D) as (A1 & A2 & A3 & A4). exists fails, (heap_of (concat (owned :: args))). repeat (split; [assumption|]).
  destruct (op fails (heap_of (concat (owned :: args)))); [discriminate E|reflexivity].
Qed.
Definition stays (h h' : heap) (kept : bytes) (mine : list cell) (x : block) : bool := keeps h h' kept x && negb (existsb (Nat.eqb x) (map fst mine)).
Lemma change_leaves_by {A} args owned (left : A -> list cell) fails kept (op : H A) : apart (owned :: args) = true ->
  match op fails (heap_of (concat (owned :: args))) with
  | Some (a, h') => existsb (stays (heap_of (concat (owned :: args))) h' kept (left a)) (seq 0 (next h'))
  | None => false
  end = true -> change_leaves args owned left fails kept op.
Proof.
  intros D E. destruct (op fails (heap_of (concat (owned :: args)))) as [[a h']|] eqn:W; [|discriminate E]. destruct (separate_ok _ _ D) as (A1 & A2 & A3 & A4).
  exists (heap_of (concat (owned :: args))), a, h'. repeat (split; [assumption|]). apply existsb_exists in E. destruct E as (x & _ & E). unfold stays, keeps in E.
  apply andb_prop in E. destruct E as (E & N). exists x. destruct (mem (heap_of (concat (owned :: args))) x); [discriminate E|]. destruct (mem h' x) as [c|]; [|discriminate E].
  apply beqb_spec in E. subst c. split; [reflexivity|]. split; [reflexivity|]. intros I. apply Bool.negb_true_iff in N.
  assert (T : existsb (Nat.eqb x) (map fst (left a)) = true) by (apply existsb_exists; exists x; split; [exact I|apply PeanoNat.Nat.eqb_refl]). rewrite T in N. discriminate N.
Qed.
Lemma change_exposes_by {A} args owned fails secret (op : H A) : apart (owned :: args) = true ->
  match op fails (heap_of (concat (owned :: args))) with Some (_, h') => existsb (begins secret) (freed h') | None => false end = true -> change_exposes args owned fails secret op.
Proof.
  intros D E. destruct (op fails (heap_of (concat (owned :: args)))) as [[a h']|] eqn:W; [|discriminate E]. destruct (separate_ok _ _ D) as (A1 & A2 & A3 & A4).
  apply existsb_exists in E. destruct E as ([x c] & I & E). unfold begins in E. cbn [snd] in E. apply beqb_spec in E.
  exists (heap_of (concat (owned :: args))), a, h', x, (skipn (length secret) c). repeat (split; [assumption|]). split; [|intros []]. rewrite <- E at 1. rewrite firstn_skipn. exact I.
Qed.
Ltac by_changing := apply changes_by; vm_compute; reflexivity.
Definition made_some {T} (o : option T) : bool := match o with Some _ => true | None => false end.

(* ---- the arguments ---- *)
Local Open Scope nat_scope.
Definition h_info : hdi := Eval vm_compute in at_ 900 (pl_di (cx_dev v_ctx)).
Definition h_chain : hch := Eval vm_compute in at_ 920 (pl_ch v_sender).
Definition h_storage_keys : hsk := Eval vm_compute in at_ 950 (pl_sk (cx_storage v_ctx)).
Definition h_identifier : hbuf := Eval vm_compute in at_ 960 (pl_buf [x61; x6c; x69; x63; x65]).
Definition h_long : hbuf := Eval vm_compute in at_ 960 (pl_buf (repeat x61 128)).
(* root keys whose halves do not belong together, and whose private half is not a key *)
Definition h_mixed : hrk := Eval vm_compute in
  at_ 970 (pl_rk {| rk_signature := {| ek_curve := P521; ek_pub := ek_pub v_private; ek_pri := ek_pri v_exchange_key |}; rk_node := v_key; rk_remote := v_other |}).
Definition h_unusable : hrk := Eval vm_compute in
  at_ 970 (pl_rk {| rk_signature := key_value broken0; rk_node := v_key; rk_remote := v_other |}).
(* a stored context, and the same protected by a passphrase *)
Definition v_context : bytes := Eval vm_compute in oval [] (ctx_serialize (Some v_ctx)).
Definition v_exported : bytes := Eval vm_compute in val [] (ctx_export toy (Some v_ctx) (Some v_pass) 9).
Definition h_exported : hbuf := Eval vm_compute in at_ 990 (pl_buf v_exported).
Definition h_backup : hbuf := h_recovery.
Definition h_mixed_key : hkey := Eval vm_compute in at_ 970 (pl_key {| ek_curve := P521; ek_pub := ek_pub v_private; ek_pri := ek_pri v_exchange_key |}).
(* the keys derived from the passphrase *)
Definition derived_from (e p : bytes) : bytes := match kdf_meta_create_with_buffer (Some e) with Val m => bytes_of (kdf_algo_hash toy m p) | _ => [] end.
Definition v_derived_export : bytes := Eval vm_compute in derived_from v_exported v_pass.
Definition v_derived_key : bytes := Eval vm_compute in derived_from v_recovery_key v_pass.
(* the header key of the context that is made when nothing fails *)
Definition header_of {T} (ctx : T -> hcx) (args : list (list cell)) (op : H (option T)) : bytes :=
  match op never (heap_of (concat args)) with Some (Some t, _) => ck_data (ck_value (hcx_header (ctx t))) | _ => [] end.
Definition own_ctx (x : hcx) : hcx := x.
Definition v_header_ctx_create : bytes := Eval vm_compute in
  header_of own_ctx [di_cells h_info ++ ch_cells h_chain ++ sk_cells h_storage_keys] (h_ctx_create toy (Some h_info) (Some h_chain) (Some h_storage_keys)).
Definition v_header_ctx_parse : bytes := Eval vm_compute in header_of own_ctx [di_cells h_info] (h_ctx_from_bytes toy h_info v_context).
Definition v_header_ctx_import : bytes := Eval vm_compute in
  header_of own_ctx [di_cells h_info; buf_cells h_exported; buf_cells h_pass] (h_ctx_import toy (Some h_info) (Some h_exported) (Some h_pass) []).
Definition v_header_ctx_with_keys : bytes := Eval vm_compute in
  header_of hgr_ctx [di_cells h_info; rk_cells h_root; buf_cells h_identifier] (h_ctx_gen_with_root_keys toy (Some h_info) (Some h_root) (Some h_identifier) 1).
Definition v_header_ctx_new : bytes := Eval vm_compute in
  header_of hgr_ctx [di_cells h_info; buf_cells h_identifier] (h_ctx_gen_new toy (Some h_info) (Some h_identifier) 1).
Definition v_header_ctx_with_sig_key : bytes := Eval vm_compute in
  header_of hgr_ctx [di_cells h_info; key_cells h_exchange_key; buf_cells h_identifier] (h_ctx_gen_new_with_sig_key toy (Some h_info) (Some h_exchange_key) (Some h_identifier) 1).
(* the cached status of the chain that is rejected *)
Definition cache_of (r : res chain) : bytes := match r with Val c => oval [] (ch_cache (snd (chain_validate toy c))) | _ => [] end.
Definition v_mixed_cache : bytes := Eval vm_compute in cache_of (new_chain toy (rk_value h_mixed) (b_bytes h_identifier) 1).
Definition v_mixed_sig_cache : bytes := Eval vm_compute in
  cache_of (of_new_keys toy 1 Null (fun k => new_chain toy (with_sig k (Some (key_value h_mixed_key))) (b_bytes h_identifier) 4)).

(* ---- the conditions ---- *)
Lemma toy_laws : sha_ok toy /\ sign_ok toy /\ rand_ok toy /\ gen_ok toy /\ ec_ok toy /\ aead_len_ok toy /\ ctr_ok toy /\ scrypt_ok toy /\ hkdf_ok toy.
Proof. exact (conj toy_sha (conj toy_sign (conj toy_rand (conj toy_gen (conj toy_ec (conj toy_aead_len (conj toy_ctr (conj toy_scrypt toy_hkdf)))))))). Qed.
Lemma made_arguments : made_dev_info (di_value h_info) /\ made_root_keys (rk_value h_root) /\ made_ec_key (key_value h_exchange_key) /\ made_cipher_key (ck_value h_other_key).
Proof.
  split; [|split; [|split]].
  - unfold made_dev_info. split; [|split; [|split]]; [closed| |closed..]. eexists. split; [vm_compute; reflexivity|closed].
  - exact (made_h_root _ eq_refl).
  - unfold made_ec_key. split; [closed|]. intros x E. vm_compute in E. injection E as <-. closed.
  - vm_compute. reflexivity.
Qed.
Lemma exported_condition : ~ not_a_ciphertext toy (b_bytes h_exported) (b_bytes h_pass) /\
  forall m, kdf_meta_create_with_buffer (Some (b_bytes h_exported)) = Val m -> ~ empty_bcrypt (km_algo m) (b_bytes h_pass).
Proof. apply import_one; [discriminate|vm_compute; reflexivity]. Qed.
Lemma recovery_key_condition : ~ not_a_ciphertext toy (b_bytes h_recovery_key) (b_bytes h_pass) /\
  forall m, kdf_meta_create_with_buffer (Some (b_bytes h_recovery_key)) = Val m -> ~ empty_bcrypt (km_algo m) (b_bytes h_pass).
Proof. apply import_one; [discriminate|vm_compute; reflexivity]. Qed.
Lemma not_rejected k id s : match new_chain toy k id s with Val c => chain_signed toy c | _ => true end = true -> ~ new_chain_rejected toy k id s.
Proof. intros E (c & C & V). rewrite C in E. rewrite E in V. discriminate V. Qed.
Lemma with_keys_condition : (forall q, ek_pri (rk_signature (rk_value h_root)) = Some q -> p_d2i toy q <> None) /\ ~ new_chain_rejected toy (rk_value h_root) (b_bytes h_identifier) 1.
Proof. split; [|apply not_rejected; vm_compute; reflexivity]. intros q Q. vm_compute in Q. injection Q as <-. vm_compute. discriminate. Qed.
Lemma with_sig_condition : (forall q, ek_pri (key_value h_exchange_key) = Some q -> p_d2i toy q <> None) /\
  forall k, fst (root_keys_generate toy 1) = Val k -> ~ new_chain_rejected toy (with_sig k (Some (key_value h_exchange_key))) (b_bytes h_identifier) (3 + 1).
Proof.
  split; [intros q Q; vm_compute in Q; injection Q as <-; vm_compute; discriminate|]. intros k K. apply not_rejected.
  assert (G : match fst (root_keys_generate toy 1) with
              | Val x => match new_chain toy (with_sig x (Some (key_value h_exchange_key))) (b_bytes h_identifier) (3 + 1) with Val c => chain_signed toy c | _ => true end
              | _ => true end = true) by (vm_compute; reflexivity).
  rewrite K in G. exact G.
Qed.
Lemma stops_by {A} args (op : H A) : apart args = true -> match op never (heap_of (concat args)) with None => true | _ => false end = true ->
  exists h, heap_ok h /\ all_in_memory h args /\ op never h = None.
Proof.
  intros D E. exists (heap_of (concat args)). split; [apply heap_of_ok|]. split; [exact (apart_ok _ D)|]. destruct (op never (heap_of (concat args))); [discriminate E|reflexivity].
Qed.
Lemma alone_ok cells : apart [cells] = true -> let h := heap_of cells in heap_ok h /\ in_memory h cells.
Proof. intros D h. split; [apply heap_of_ok|]. pose proof (apart_ok _ D) as M. cbn [concat] in M. rewrite app_nil_r in M. exact (Forall_inv M). Qed.
(* an allocation fails once: the status that is cached says the chain is not valid *)
Lemma spoiled_chain : exists c fails h c1 h1 c2 h2, heap_ok h /\ in_memory h (ch_cells c) /\ fst (chain_validate toy (ch_value c)) = true /\
  h_chain_validate toy c fails h = Some ((false, c1), h1) /\ h_chain_validate toy c1 never h1 = Some ((false, c2), h2).
Proof.
  assert (D : apart [ch_cells h_chain] = true) by (vm_compute; reflexivity). destruct (alone_ok _ D) as (OK & M).
  assert (T : fst (chain_validate toy (ch_value h_chain)) = true) by (vm_compute; reflexivity).
  assert (G : match h_chain_validate toy h_chain (only 941) (heap_of (ch_cells h_chain)) with
              | Some ((false, c1), h1) => match h_chain_validate toy c1 never h1 with Some ((false, _), _) => true | _ => false end
              | _ => false end = true) by (vm_compute; reflexivity).
  destruct (h_chain_validate toy h_chain (only 941) (heap_of (ch_cells h_chain))) as [[[[|] c1] h1]|] eqn:E1; [discriminate G| |discriminate G].
  destruct (h_chain_validate toy c1 never h1) as [[[[|] c2] h2]|] eqn:E2; [discriminate G| |discriminate G].
  exists h_chain, (only 941), (heap_of (ch_cells h_chain)), c1, h1, c2, h2. repeat (split; [assumption|]). exact E2.
Qed.
Lemma spoiled_node : exists n fails h n1 h1 n2 h2, heap_ok h /\ in_memory h (nd_cells n) /\ fst (node_verify_signature_chain toy (nd_value n)) = true /\
  h_node_verify_signature_chain toy n fails h = Some ((false, n1), h1) /\ h_node_verify_signature_chain toy n1 never h1 = Some ((false, n2), h2).
Proof.
  assert (D : apart [nd_cells h_node] = true) by (vm_compute; reflexivity). destruct (alone_ok _ D) as (OK & M).
  assert (T : fst (node_verify_signature_chain toy (nd_value h_node)) = true) by (vm_compute; reflexivity).
  assert (G : match h_node_verify_signature_chain toy h_node (only 183) (heap_of (nd_cells h_node)) with
              | Some ((false, c1), h1) => match h_node_verify_signature_chain toy c1 never h1 with Some ((false, _), _) => true | _ => false end
              | _ => false end = true) by (vm_compute; reflexivity).
  destruct (h_node_verify_signature_chain toy h_node (only 183) (heap_of (nd_cells h_node))) as [[[[|] c1] h1]|] eqn:E1; [discriminate G| |discriminate G].
  destruct (h_node_verify_signature_chain toy c1 never h1) as [[[[|] c2] h2]|] eqn:E2; [discriminate G| |discriminate G].
  exists h_node, (only 183), (heap_of (nd_cells h_node)), c1, h1, c2, h2. repeat (split; [assumption|]). exact E2.
Qed.
(* what goes wrong *)
Lemma C89_ctx_import_refuted_ok : change_leaves [buf_cells stray0; buf_cells aad0] (di_cells h_info) (taken cx_cells (di_cells h_info)) never derived0
    (h_ctx_import toy (Some h_info) (Some stray0) (Some aad0) []).
Proof. apply change_leaves_by; vm_compute; reflexivity. Qed.

Lemma C89_ctx_with_keys_undecodable_refuted_ok : op_leaves [di_cells h_info; rk_cells h_unusable; buf_cells h_identifier] never None []
    (h_ctx_gen_with_root_keys toy (Some h_info) (Some h_unusable) (Some h_identifier) 1).
Proof. apply op_leaves_none; vm_compute; reflexivity. Qed.

Lemma C89_ctx_with_keys_refuted_ok : op_leaves [di_cells h_info; rk_cells h_mixed; buf_cells h_identifier] never None v_mixed_cache
    (h_ctx_gen_with_root_keys toy (Some h_info) (Some h_mixed) (Some h_identifier) 1).
Proof. apply op_leaves_none; vm_compute; reflexivity. Qed.

Lemma C89_ctx_with_sig_key_refuted_ok : op_leaves [di_cells h_info; key_cells h_mixed_key; buf_cells h_identifier] never None v_mixed_sig_cache
    (h_ctx_gen_new_with_sig_key toy (Some h_info) (Some h_mixed_key) (Some h_identifier) 1).
Proof. apply op_leaves_none; vm_compute; reflexivity. Qed.

Lemma C89_ctx_with_recovery_refuted_ok : exists h, heap_ok h /\ all_in_memory h [di_cells h_info; buf_cells h_recovery; ck_cells h_other_key; buf_cells h_long] /\
    h_ctx_gen_with_recovery toy (Some h_info) (Some h_recovery) (Some h_other_key) (Some h_long) 1 [] never h = None.
Proof. apply stops_by; vm_compute; reflexivity. Qed.

Lemma C89_ctx_with_passphrase_refuted_ok : exists h, heap_ok h /\ all_in_memory h [di_cells h_info; buf_cells h_recovery_key; buf_cells h_pass; buf_cells h_recovery; buf_cells h_long] /\
    h_ctx_gen_with_passphrase toy (Some h_info) (Some h_recovery_key) (Some h_pass) (Some h_recovery) (Some h_long) 1 [] [] never h = None.
Proof. apply stops_by; vm_compute; reflexivity. Qed.

Lemma C89_ctx_with_passphrase_leaks_refuted_ok : op_leaves [di_cells h_info; buf_cells stray0; buf_cells aad0; buf_cells h_recovery; buf_cells h_identifier] never None derived0
    (h_ctx_gen_with_passphrase toy (Some h_info) (Some stray0) (Some aad0) (Some h_recovery) (Some h_identifier) 1 [] []).
Proof. apply op_leaves_none; vm_compute; reflexivity. Qed.

Lemma C90_chain_validate_refuted_ok : change_crashes [] (ch_cells h_chain)
    (h_chain_validate toy h_chain).
Proof. refine (change_crashes_by _ _ (fun _ ty => match ty with T_openssl => true | _ => false end) _ _ _); vm_compute; reflexivity. Qed.

Lemma C90_node_verify_refuted_ok : change_crashes [] (nd_cells h_node)
    (h_node_verify_signature_chain toy h_node).
Proof. refine (change_crashes_by _ _ (fun _ ty => match ty with T_openssl => true | _ => false end) _ _ _); vm_compute; reflexivity. Qed.

Lemma C90_ctx_create_refuted_ok : change_crashes [] (di_cells h_info ++ ch_cells h_chain ++ sk_cells h_storage_keys)
    (h_ctx_create toy (Some h_info) (Some h_chain) (Some h_storage_keys)).
Proof. refine (change_crashes_by _ _ (fun _ ty => match ty with T_cipher_key => true | _ => false end) _ _ _); vm_compute; reflexivity. Qed.

Lemma C90_ctx_create_leaks_refuted_ok : exists fails, change_leaves [] (di_cells h_info ++ ch_cells h_chain ++ sk_cells h_storage_keys) (taken cx_cells (di_cells h_info ++ ch_cells h_chain ++ sk_cells h_storage_keys)) fails v_header_ctx_create
    (h_ctx_create toy (Some h_info) (Some h_chain) (Some h_storage_keys)).
Proof. exists (fun _ ty => match ty with T_ctx => true | _ => false end). apply change_leaves_by; vm_compute; reflexivity. Qed.

Lemma C90_ctx_parse_refuted_ok : change_crashes [] (di_cells h_info)
    (h_ctx_from_bytes toy h_info v_context).
Proof. refine (change_crashes_by _ _ (fun _ ty => match ty with T_cipher_key => true | _ => false end) _ _ _); vm_compute; reflexivity. Qed.

Lemma C90_ctx_parse_leaks_refuted_ok : exists fails, change_leaves [] (di_cells h_info) (taken cx_cells (di_cells h_info)) fails v_header_ctx_parse
    (h_ctx_from_bytes toy h_info v_context).
Proof. exists (fun _ ty => match ty with T_ctx => true | _ => false end). apply change_leaves_by; vm_compute; reflexivity. Qed.

Lemma C90_ctx_import_refuted_ok : change_crashes [buf_cells h_exported; buf_cells h_pass] (di_cells h_info)
    (h_ctx_import toy (Some h_info) (Some h_exported) (Some h_pass) []).
Proof. refine (change_crashes_by _ _ (fun _ ty => match ty with T_cipher_result => true | _ => false end) _ _ _); vm_compute; reflexivity. Qed.

Lemma C90_ctx_import_leaks_refuted_ok : exists fails, change_leaves [buf_cells h_exported; buf_cells h_pass] (di_cells h_info) (taken cx_cells (di_cells h_info)) fails v_header_ctx_import
    (h_ctx_import toy (Some h_info) (Some h_exported) (Some h_pass) []).
Proof. exists (fun _ ty => match ty with T_ctx => true | _ => false end). apply change_leaves_by; vm_compute; reflexivity. Qed.

Lemma C90_ctx_with_keys_refuted_ok : op_crashes [di_cells h_info; rk_cells h_root; buf_cells h_identifier]
    (h_ctx_gen_with_root_keys toy (Some h_info) (Some h_root) (Some h_identifier) 1).
Proof. refine (op_crashes_by _ (fun _ ty => match ty with T_cipher_key => true | _ => false end) _ _ _); vm_compute; reflexivity. Qed.

Lemma C90_ctx_with_keys_leaks_refuted_ok : exists fails, op_leaves [di_cells h_info; rk_cells h_root; buf_cells h_identifier] fails None v_header_ctx_with_keys
    (h_ctx_gen_with_root_keys toy (Some h_info) (Some h_root) (Some h_identifier) 1).
Proof. exists (fun _ ty => match ty with T_ctx => true | _ => false end). apply op_leaves_none; vm_compute; reflexivity. Qed.

Lemma C90_ctx_new_refuted_ok : op_crashes [di_cells h_info; buf_cells h_identifier]
    (h_ctx_gen_new toy (Some h_info) (Some h_identifier) 1).
Proof. refine (op_crashes_by _ (fun _ ty => match ty with T_cipher_key => true | _ => false end) _ _ _); vm_compute; reflexivity. Qed.

Lemma C90_ctx_new_leaks_refuted_ok : exists fails, op_leaves [di_cells h_info; buf_cells h_identifier] fails None v_header_ctx_new
    (h_ctx_gen_new toy (Some h_info) (Some h_identifier) 1).
Proof. exists (fun _ ty => match ty with T_ctx => true | _ => false end). apply op_leaves_none; vm_compute; reflexivity. Qed.

Lemma C90_ctx_with_sig_key_refuted_ok : op_crashes [di_cells h_info; key_cells h_exchange_key; buf_cells h_identifier]
    (h_ctx_gen_new_with_sig_key toy (Some h_info) (Some h_exchange_key) (Some h_identifier) 1).
Proof. refine (op_crashes_by _ (fun _ ty => match ty with T_cipher_key => true | _ => false end) _ _ _); vm_compute; reflexivity. Qed.

Lemma C90_ctx_with_sig_key_leaks_refuted_ok : exists fails, op_leaves [di_cells h_info; key_cells h_exchange_key; buf_cells h_identifier] fails None v_header_ctx_with_sig_key
    (h_ctx_gen_new_with_sig_key toy (Some h_info) (Some h_exchange_key) (Some h_identifier) 1).
Proof. exists (fun _ ty => match ty with T_ctx => true | _ => false end). apply op_leaves_none; vm_compute; reflexivity. Qed.

Lemma C90_ctx_with_recovery_refuted_ok : op_crashes [di_cells h_info; buf_cells h_recovery; ck_cells h_other_key; buf_cells h_identifier]
    (h_ctx_gen_with_recovery toy (Some h_info) (Some h_recovery) (Some h_other_key) (Some h_identifier) 1 []).
Proof. refine (op_crashes_by _ (fun _ ty => match ty with T_dev_info => true | _ => false end) _ _ _); vm_compute; reflexivity. Qed.

Lemma C90_ctx_with_passphrase_refuted_ok : op_crashes [di_cells h_info; buf_cells h_recovery_key; buf_cells h_pass; buf_cells h_recovery; buf_cells h_identifier]
    (h_ctx_gen_with_passphrase toy (Some h_info) (Some h_recovery_key) (Some h_pass) (Some h_recovery) (Some h_identifier) 1 [] []).
Proof. refine (op_crashes_by _ (fun _ ty => match ty with T_dev_info => true | _ => false end) _ _ _); vm_compute; reflexivity. Qed.

Lemma C90_ctx_with_passphrase_leaks_refuted_ok : exists fails, op_leaves [di_cells h_info; buf_cells h_recovery_key; buf_cells h_pass; buf_cells h_recovery; buf_cells h_identifier] fails None v_derived_key
    (h_ctx_gen_with_passphrase toy (Some h_info) (Some h_recovery_key) (Some h_pass) (Some h_recovery) (Some h_identifier) 1 [] []).
Proof. exists (fun _ ty => match ty with T_kdf_result => true | _ => false end). apply op_leaves_none; vm_compute; reflexivity. Qed.

Lemma C91_ctx_parse_refuted_ok : change_exposes [] (di_cells h_info) never (key_bytes (sk_local (cx_storage v_ctx)))
    (h_ctx_from_bytes toy h_info v_context).
Proof. apply change_exposes_by; vm_compute; reflexivity. Qed.

Lemma C91_ctx_import_refuted_ok : change_exposes [buf_cells h_exported; buf_cells h_pass] (di_cells h_info) never (key_bytes (sk_local (cx_storage v_ctx)))
    (h_ctx_import toy (Some h_info) (Some h_exported) (Some h_pass) []).
Proof. apply change_exposes_by; vm_compute; reflexivity. Qed.

Lemma C91_ctx_import_derived_refuted_ok : exists fails, change_exposes [buf_cells h_exported; buf_cells h_pass] (di_cells h_info) fails v_derived_export
    (h_ctx_import toy (Some h_info) (Some h_exported) (Some h_pass) []).
Proof. exists (only 997). apply change_exposes_by; vm_compute; reflexivity. Qed.

Lemma C91_ctx_with_recovery_refuted_ok : op_exposes [di_cells h_info; buf_cells h_recovery; ck_cells h_other_key; buf_cells h_identifier] never (key_bytes v_key)
    (h_ctx_gen_with_recovery toy (Some h_info) (Some h_recovery) (Some h_other_key) (Some h_identifier) 1 []).
Proof. apply op_exposes_by; vm_compute; reflexivity. Qed.

Lemma C91_ctx_with_passphrase_refuted_ok : op_exposes [di_cells h_info; buf_cells h_recovery_key; buf_cells h_pass; buf_cells h_recovery; buf_cells h_identifier] never (key_bytes v_key)
    (h_ctx_gen_with_passphrase toy (Some h_info) (Some h_recovery_key) (Some h_pass) (Some h_recovery) (Some h_identifier) 1 [] []).
Proof. apply op_exposes_by; vm_compute; reflexivity. Qed.

Lemma C91_ctx_with_passphrase_derived_refuted_ok : exists fails, op_exposes [di_cells h_info; buf_cells h_recovery_key; buf_cells h_pass; buf_cells h_recovery; buf_cells h_identifier] fails v_derived_key
    (h_ctx_gen_with_passphrase toy (Some h_info) (Some h_recovery_key) (Some h_pass) (Some h_recovery) (Some h_identifier) 1 [] []).
Proof. exists (only 967). apply op_exposes_by; vm_compute; reflexivity. Qed.

Lemma C92_chain_verdict_refuted_ok : exists c fails h c1 h1 c2 h2, heap_ok h /\ in_memory h (ch_cells c) /\ fst (chain_validate toy (ch_value c)) = true /\
    h_chain_validate toy c fails h = Some ((false, c1), h1) /\ h_chain_validate toy c1 never h1 = Some ((false, c2), h2).
Proof. exact spoiled_chain. Qed.

Lemma C92_node_verdict_refuted_ok : exists n fails h n1 h1 n2 h2, heap_ok h /\ in_memory h (nd_cells n) /\ fst (node_verify_signature_chain toy (nd_value n)) = true /\
    h_node_verify_signature_chain toy n fails h = Some ((false, n1), h1) /\ h_node_verify_signature_chain toy n1 never h1 = Some ((false, n2), h2).
Proof. exact spoiled_node. Qed.
