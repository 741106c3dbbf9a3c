(* C10, C11, C34-C37, C59: fingerprints, identities, chains, nodes and ephemeral keys *)
From Verif.Base Require Import Bytes Monad.
From Verif.Model Require Import Buffer Cipher Ecdsa Prims Engine Fingerprint Identity Node.
From Verif.Spec Require Import BufferSpec CodecSpec IdentitySpec.
From Verif.Proofs Require Import BytesFacts CodecFacts ToyPrims ToyObjects FingerprintFacts IdentityFacts CacheFacts IdentityProps.
Local Open Scope N_scope.

(* C10: the order of the two parties does not matter, at both API levels, whatever the inputs *)
Theorem C10_bilateral_symmetric : forall P a b t, fingerprint_gen_bilateral P a b t = fingerprint_gen_bilateral P b a t.
Proof. exact bilateral_sym. Qed.
Print Assumptions C10_bilateral_symmetric.
Theorem C10_identity_bilateral_symmetric : forall P a b,
  identity_get_bilateral_fingerprint P a b = identity_get_bilateral_fingerprint P b a.
Proof. exact identity_bilateral_sym. Qed.
Print Assumptions C10_identity_bilateral_symmetric.
(* what it is: the SHA-512 of the two fingerprints, the larger one first *)
Theorem C10_bilateral_value : forall P a b,
  length (fp_data a) = length (fp_data b) -> within_limit (blen (fp_data a) + blen (fp_data b)) -> fp_data a <> fp_data b ->
  fingerprint_gen_bilateral P (Some a) (Some b) FP_SHA512 =
  Some {| fp_type := FP_SHA512; fp_data := p_sha P SHA512 (larger_first (fp_data a) (fp_data b)) |}.
Proof. exact bilateral_value. Qed.
Print Assumptions C10_bilateral_value.
(* two parties with one and the same fingerprint get none *)
Theorem C10_bilateral_of_equals : forall P a b, fp_data a = fp_data b ->
  fingerprint_gen_bilateral P (Some a) (Some b) FP_SHA512 = None.
Proof. exact bilateral_equal. Qed.
Print Assumptions C10_bilateral_of_equals.
Example C10_case : exists f, identity_get_bilateral_fingerprint toy (Some (toy_root 1)) (Some (toy_node_id 2)) = Val f /\ blen (fp_data f) = 64 /\
  identity_get_bilateral_fingerprint toy (Some (toy_node_id 2)) (Some (toy_root 1)) = Val f.
Proof. eexists. split; [vm_compute; reflexivity|]. split; vm_compute; reflexivity. Qed.

(* C11: equal fingerprints of two identities whose keys have the size the library generates mean
   the same identifier and the same key, if SHA-512 does not collide on the two inputs *)
Theorem C11_fingerprint_binds : forall P a b f, full_size (id_key a) -> full_size (id_key b) ->
  no_collision P (id_identifier a ++ pub_of a) (id_identifier b ++ pub_of b) ->
  identity_get_fingerprint P (Some a) = Val f -> identity_get_fingerprint P (Some b) = Val f ->
  id_identifier a = id_identifier b /\ pub_of a = pub_of b.
Proof. exact fingerprint_binds. Qed.
Print Assumptions C11_fingerprint_binds.
Theorem C11_fingerprint_exists : forall P x, full_size (id_key x) -> blen (id_identifier x) < 128 ->
  exists f, identity_get_fingerprint P (Some x) = Val f.
Proof. exact gen_full_ok. Qed.
Print Assumptions C11_fingerprint_exists.
(* and the bilateral fingerprint determines the unordered pair *)
Theorem C11_bilateral_binds : forall P f1 f2 g1 g2 h,
  (forall x, In x [f1; f2; g1; g2] -> length (fp_data x) = 64%nat) ->
  no_collision P (larger_first (fp_data f1) (fp_data f2)) (larger_first (fp_data g1) (fp_data g2)) ->
  fingerprint_gen_bilateral P (Some f1) (Some f2) FP_SHA512 = Some h ->
  fingerprint_gen_bilateral P (Some g1) (Some g2) FP_SHA512 = Some h ->
  (fp_data f1 = fp_data g1 /\ fp_data f2 = fp_data g2) \/ (fp_data f1 = fp_data g2 /\ fp_data f2 = fp_data g1).
Proof. exact bilateral_binds. Qed.
Print Assumptions C11_bilateral_binds.
(* for shorter keys the zero padding makes two different keys one: no digest is to blame *)
Theorem C11_short_keys_refuted : exists a b, pub_of a <> pub_of b /\
  forall P, identity_get_fingerprint P (Some a) = identity_get_fingerprint P (Some b).
Proof.
  exists {| id_type := ID_ROOT; id_identifier := [x41]; id_key := {| ek_curve := P521; ek_pub := [x00; x02; x05]; ek_pri := None |}; id_signature := None |}.
  exists {| id_type := ID_ROOT; id_identifier := [x41]; id_key := {| ek_curve := P521; ek_pub := [x00; x02; x05; x00]; ek_pri := None |}; id_signature := None |}.
  split; [discriminate|]. intros P. vm_compute. reflexivity.
Qed.
Print Assumptions C11_short_keys_refuted.
Example C11_case : full_size (id_key (toy_root 1)) /\ full_size (id_key (toy_node_id 1)) /\
  identity_get_fingerprint toy (Some (toy_root 1)) <> identity_get_fingerprint toy (Some (toy_node_id 1)) /\
  no_collision toy (id_identifier (toy_root 1) ++ pub_of (toy_root 1)) (id_identifier (toy_node_id 1) ++ pub_of (toy_node_id 1)).
Proof.
  split; [vm_compute; reflexivity|]. split; [vm_compute; reflexivity|]. split; [vm_compute; discriminate|].
  intros H. exfalso. revert H. vm_compute. discriminate.
Qed.

(* C34: in every history of validations, copies and edits that starts with the library's
   constructor, each validation gives the answer that a validation without a cache would give:
   keys of the generated size, SHA-512 signatures, and no SHA-512 collision among the cache
   messages of the states of that history *)
Theorem C34_chain_cache_transparent : forall P root node c ops, chain_create (Some root) (Some node) = Some c ->
  (forall x a, In (x, a) (chain_trace P c ops) -> regular_chain x) ->
  collision_free P (flat_map (fun xa => chain_messages (fst xa)) (chain_trace P c ops)) ->
  answers_right (chain_truth P) (chain_trace P c ops).
Proof. exact chain_history. Qed.
Print Assumptions C34_chain_cache_transparent.
(* when nobody writes into the structure, nothing is asked of the digest or the keys *)
Theorem C34_unedited_chain : forall P root node c ops, chain_create (Some root) (Some node) = Some c -> Forall no_edit ops ->
  answers_right (chain_truth P) (chain_trace P c ops).
Proof. exact chain_unchanged. Qed.
Print Assumptions C34_unedited_chain.
(* the digest type of a signature is not in the cache: after changing it in place, the old answer stays *)
Definition toy_digest_bound : prims := {|
  p_gcm_enc := p_gcm_enc toy; p_gcm_dec := p_gcm_dec toy; p_ctr := p_ctr toy; p_sha := p_sha toy; p_hmac := p_hmac toy;
  p_hkdf := p_hkdf toy; p_hkdf_expand := p_hkdf_expand toy; p_scrypt := p_scrypt toy; p_gensalt := p_gensalt toy; p_crypt := p_crypt toy;
  p_rand := p_rand toy; p_ec_gen := p_ec_gen toy; p_d2i := p_d2i toy; p_o2i := p_o2i toy; p_inf := p_inf toy; p_sign := p_sign toy;
  p_verify := fun d pub msg s => match d with SHA512 => p_verify toy d pub msg s | _ => false end; p_ecdh := p_ecdh toy |}.
Definition other_digest (x : identity) : identity :=
  {| id_type := id_type x; id_identifier := id_identifier x; id_key := id_key x;
     id_signature := option_map (fun s => {| es_curve := es_curve s; es_digest := SHA256; es_sig := es_sig s |}) (id_signature x) |}.
Theorem C34_digest_type_refuted : exists P root node c ops, chain_create (Some root) (Some node) = Some c /\
  (forall x a, In (x, a) (chain_trace P c ops) -> full_size (id_key (ch_root x)) /\ full_size (id_key (ch_node x))) /\
  collision_free P (flat_map (fun xa => chain_messages (fst xa)) (chain_trace P c ops)) /\
  ~ answers_right (chain_truth P) (chain_trace P c ops).
Proof.
  exists toy_digest_bound, (toy_root 1), (toy_node_id 1), (toy_chain 1), [Validate; Edit (toy_root 1) (other_digest (toy_node_id 1)) S_VALID; Validate].
  split; [reflexivity|]. split; [|split].
  - apply states_ok with (Q := fun x => full_size (id_key (ch_root x)) /\ full_size (id_key (ch_node x))) (q := fun x => full_sizeb (id_key (ch_root x)) && full_sizeb (id_key (ch_node x))); [|vm_compute; reflexivity].
    intros x H. apply andb_prop in H. split; apply full_sizeb_ok, H.
  - apply collision_freeb_ok. vm_compute. reflexivity.
  - apply answers_rightb_ok. vm_compute. reflexivity.
Qed.
Print Assumptions C34_digest_type_refuted.
(* a history with a wrong signer in the middle: the answers are yes, yes, no, no, yes *)
Example C34_case : let ops := [Validate; Validate; Edit (toy_root 2) (toy_node_id 1) S_VALID; Validate; Copy; Validate; Edit (toy_root 1) (toy_node_id 1) S_INVALID; Validate] in
  (forall x a, In (x, a) (chain_trace toy (toy_chain 1) ops) -> regular_chain x) /\
  collision_free toy (flat_map (fun xa => chain_messages (fst xa)) (chain_trace toy (toy_chain 1) ops)) /\
  map snd (chain_trace toy (toy_chain 1) ops) = [Some true; Some true; None; Some false; None; Some false; None; Some true].
Proof.
  split; [|split].
  - apply states_ok with (q := regular_chainb); [exact regular_chainb_ok|vm_compute; reflexivity].
  - apply collision_freeb_ok. vm_compute. reflexivity.
  - vm_compute. reflexivity.
Qed.

(* C35, as far as it is true: verifying, validating the chain, copying and rotating the keypair,
   in any order, the node answers what a verification without caches would answer.
   Missing: assigning node->id_chain, see the counterexample below. *)
Theorem C35_node_cache_transparent_partial : forall P d root node kp c n ops,
  chain_create (Some root) (Some node) = Some c -> node_create (Some d) (Some c) kp = Some n ->
  Forall same_chain_op ops ->
  (forall x a, In (x, a) (node_trace P n ops) -> regular_keypair x) ->
  collision_free P (flat_map (fun xa => node_messages (fst xa)) (node_trace P n ops)) ->
  answers_right (node_truth P) (node_trace P n ops).
Proof. exact node_history. Qed.
Print Assumptions C35_node_cache_transparent_partial.
(* the node's cache does not say which chain it is about: giving a verified node another person's
   (validated) chain leaves it verified *)
Theorem C35_replaced_chain_refuted : exists P n c ops,
  (exists d root node c0 k, chain_create (Some root) (Some node) = Some c0 /\ node_create (Some d) (Some c0) (Some k) = Some n) /\
  (exists root node c0, chain_create (Some root) (Some node) = Some c0 /\ chain_validate P c0 = (true, c)) /\
  In (NReplaceChain c) ops /\
  (forall x a, In (x, a) (node_trace P n ops) -> regular_keypair x) /\
  collision_free P (flat_map (fun xa => node_messages (fst xa)) (node_trace P n ops)) /\
  ~ answers_right (node_truth P) (node_trace P n ops).
Proof.
  exists toy, (toy_node 1), (snd (chain_validate toy (toy_chain 2))), [NVerify; NReplaceChain (snd (chain_validate toy (toy_chain 2))); NVerify].
  split; [|split; [|split; [|split; [|split]]]].
  - exists [x64; x01], (toy_root 1), (toy_node_id 1), (toy_chain 1), (toy_keypair 1 7). split; reflexivity.
  - exists (toy_root 2), (toy_node_id 2), (toy_chain 2). split; [reflexivity|]. vm_compute. reflexivity.
  - right. left. reflexivity.
  - apply states_ok with (q := regular_keypairb); [exact regular_keypairb_ok|vm_compute; reflexivity].
  - apply collision_freeb_ok. vm_compute. reflexivity.
  - apply answers_rightb_ok. vm_compute. reflexivity.
Qed.
Print Assumptions C35_replaced_chain_refuted.
Example C35_case : let ops := [NVerify; NVerify; NRotate (toy_keypair 2 8) false; NVerify; NRotate (toy_keypair 1 9) true; NCopy; NVerify] in
  Forall same_chain_op ops /\ (forall x a, In (x, a) (node_trace toy (toy_node 1) ops) -> regular_keypair x) /\
  collision_free toy (flat_map (fun xa => node_messages (fst xa)) (node_trace toy (toy_node 1) ops)) /\
  map snd (node_trace toy (toy_node 1) ops) = [Some true; Some true; None; Some false; None; None; Some true].
Proof.
  split; [repeat constructor|]. split; [|split].
  - apply states_ok with (q := regular_keypairb); [exact regular_keypairb_ok|vm_compute; reflexivity].
  - apply collision_freeb_ok. vm_compute. reflexivity.
  - vm_compute. reflexivity.
Qed.

(* C36: the public serializations are functions of the public parts: two objects that differ only
   in private keys (or caches) serialize to the same bytes *)
Theorem C36_identity_serialization_public : forall x y, public_identity x = public_identity y -> identity_serialize (Some x) = identity_serialize (Some y).
Proof. exact identity_serialize_public. Qed.
Print Assumptions C36_identity_serialization_public.
Theorem C36_chain_serialization_public : forall c d, public_chain c = public_chain d -> chain_serialize (Some c) = chain_serialize (Some d).
Proof. exact chain_serialize_public. Qed.
Print Assumptions C36_chain_serialization_public.
Theorem C36_keypair_serialization_public : forall k l, public_keypair k = public_keypair l -> keypair_serialize (Some k) = keypair_serialize (Some l).
Proof. exact keypair_serialize_public. Qed.
Print Assumptions C36_keypair_serialization_public.
Theorem C36_node_serialization_public : forall m n, public_node m = public_node n -> node_serialize (Some m) = node_serialize (Some n).
Proof. exact node_serialize_public. Qed.
Print Assumptions C36_node_serialization_public.
(* and what is read back from them has no private key *)
Theorem C36_chain_parsed_public : forall P c b d, chain_serialize (Some c) = Some b -> chain_create_from_buffer P (Some b) = Val d ->
  ek_pri (id_key (ch_root d)) = None /\ ek_pri (id_key (ch_node d)) = None.
Proof. exact chain_parsed_public. Qed.
Print Assumptions C36_chain_parsed_public.
Theorem C36_keypair_parsed_public : forall P b k, keypair_create_from_buffer P b = Val k -> ek_pri (kp_key k) = None.
Proof. exact keypair_parsed_public. Qed.
Print Assumptions C36_keypair_parsed_public.
(* the private serialization does depend on the private keys *)
Example C36_case : let c := toy_chain 1 in let d := public_chain c in
  ek_pri (id_key (ch_root c)) <> None /\ public_chain c = public_chain d /\
  chain_serialize (Some c) = chain_serialize (Some d) /\ chain_serialize (Some c) <> None /\
  chain_serialize_private (Some c) <> None /\ chain_serialize_private (Some c) <> chain_serialize_private (Some d).
Proof. vm_compute. repeat split; discriminate. Qed.

(* C37: round trips *)
Theorem C37_identity_roundtrip : forall P x b, good_identity P x -> identity_serialize (Some x) = Some b ->
  identity_create_from_buffer P (Some b) = Val (public_identity x).
Proof. exact identity_roundtrip. Qed.
Print Assumptions C37_identity_roundtrip.
Theorem C37_chain_roundtrip : forall P c b, good_chain P c -> chain_serialize (Some c) = Some b ->
  chain_create_from_buffer P (Some b) = Val (public_chain c).
Proof. exact chain_roundtrip. Qed.
Print Assumptions C37_chain_roundtrip.
(* the private form keeps the private keys *)
Theorem C37_private_chain_roundtrip : forall P c b, good_chain P c ->
  importable_private P (id_key (ch_root c)) -> importable_private P (id_key (ch_node c)) ->
  chain_serialize_private (Some c) = Some b ->
  chain_create_from_buffer P (Some b) = Val {| ch_root := ch_root c; ch_node := ch_node c; ch_status := S_UNKNOWN; ch_cache := None |}.
Proof. exact chain_private_roundtrip. Qed.
Print Assumptions C37_private_chain_roundtrip.
Theorem C37_keypair_roundtrip : forall P k b, good_keypair P k -> keypair_serialize (Some k) = Some b ->
  keypair_create_from_buffer P (Some b) = Val (public_keypair k).
Proof. exact keypair_roundtrip. Qed.
Print Assumptions C37_keypair_roundtrip.
Theorem C37_node_roundtrip : forall P n b, good_node P n -> node_serialize (Some n) = Some b ->
  node_create_from_buffer P (Some b) = Val (public_node n).
Proof. exact node_roundtrip. Qed.
Print Assumptions C37_node_roundtrip.
(* every key the engine generated or imported is read back as it was *)
Theorem C37_engine_keys_importable : forall P k, ec_ok P -> gen_ok P -> engine_key P k ->
  importable P k /\ (ek_pri k <> None -> importable_private P k).
Proof. exact (fun P k EO GO EK => conj (engine_key_importable P k EO GO EK) (engine_key_importable_private P k EO GO EK)). Qed.
Print Assumptions C37_engine_keys_importable.
Example C37_case : exists b, node_serialize (Some (toy_node 1)) = Some b /\
  node_create_from_buffer toy (Some b) = Val (public_node (toy_node 1)) /\
  exists p, chain_serialize_private (Some (toy_chain 1)) = Some p /\ chain_create_from_buffer toy (Some p) = Val (toy_chain 1).
Proof.
  exists (oval [] (node_serialize (Some (toy_node 1)))). split; [vm_compute; reflexivity|]. split; [vm_compute; reflexivity|].
  exists (oval [] (chain_serialize_private (Some (toy_chain 1)))). split; vm_compute; reflexivity.
Qed.

(* C59: what the library generates and signs verifies, is well formed, and carries the identifier asked for *)
Theorem C59_generated_node_identity : forall P root i s n s', ec_ok P -> gen_ok P -> sign_ok P -> rand_ok P -> engine_key P (id_key root) ->
  node_identity_gen P (Some root) i s = (Val n, s') ->
  id_type n = ID_NODE /\ engine_key P (id_key n) /\ good_identity P n /\ full_size (id_key n) /\
  (forall x, i = Some x -> id_identifier n = x) /\
  ec_verify P (id_signature n) (Some (id_key root)) (Some (pub_of n)) = true.
Proof. exact node_gen_ok. Qed.
Print Assumptions C59_generated_node_identity.
Theorem C59_generated_chain_validates : forall P root i s n s' c, ec_ok P -> gen_ok P -> sign_ok P -> rand_ok P -> engine_key P (id_key root) ->
  node_identity_gen P (Some root) i s = (Val n, s') -> chain_create (Some root) (Some n) = Some c -> fst (chain_validate P c) = true.
Proof. exact generated_chain_valid. Qed.
Print Assumptions C59_generated_chain_validates.
Theorem C59_generated_keypair : forall P i x s k s', ec_ok P -> gen_ok P -> sign_ok P -> engine_key P (id_key x) ->
  keypair_generate_identity P i (Some x) s = (Val k, s') ->
  kp_identifier k = i /\ engine_key P (kp_key k) /\ full_size (kp_key k) /\ (i < 2 ^ 64 -> good_keypair P k) /\
  keypair_verify_owner P (Some k) (Some x) = true /\ ek_pri (kp_key k) <> None.
Proof. exact keypair_gen_ok. Qed.
Print Assumptions C59_generated_keypair.
(* any message signed by an identity verifies under its key *)
Theorem C59_signatures_verify : forall P x d s sg s', ec_ok P -> gen_ok P -> sign_ok P -> engine_key P (id_key x) ->
  identity_sign P (Some x) (Some d) s = (Val sg, s') ->
  ec_verify P (Some sg) (Some (id_key x)) (Some d) = true /\ good_sig sg /\ es_digest sg = SHA512.
Proof. exact identity_sign_verifies. Qed.
Print Assumptions C59_signatures_verify.
Example C59_case : engine_key toy (id_key (toy_root 1)) /\
  (exists n s', node_identity_gen toy (Some (toy_root 1)) None 3%nat = (Val n, s') /\ blen (id_identifier n) = 32) /\
  (exists k s', keypair_generate_identity toy 5 (Some (toy_root 1)) 3%nat = (Val k, s')).
Proof.
  split; [apply toy_key_made|]. split; eexists; eexists; [split|]; vm_compute; reflexivity.
Qed.
