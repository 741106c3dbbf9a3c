(* Vocabulary for fingerprints, identities, chains, nodes and ephemeral keys. *)
From Verif.Base Require Import Bytes Monad.
From Verif.Model Require Import Cipher Ecdsa Prims Engine Identity Node.
From Verif.Spec Require Import BufferSpec CodecSpec.
Local Open Scope N_scope.

(* --- fingerprints *)
(* a is lexicographically larger than b *)
Fixpoint lex_gt (a b : bytes) : bool :=
  match a, b with
  | x :: a', y :: b' => if b2n x =? b2n y then lex_gt a' b' else b2n y <? b2n x
  | _, _ => false
  end.
Definition larger_first (a b : bytes) : bytes := if lex_gt a b then a ++ b else b ++ a.
(* the digest maps these two messages to the same value only if they are the same *)
Definition no_collision (P : prims) (x y : bytes) : Prop := p_sha P SHA512 x = p_sha P SHA512 y -> x = y.
(* a public key of the size the library generates: curve byte and uncompressed point *)
Definition full_size (k : ec_key) : Prop := length (ek_pub k) = 134%nat.
Definition pub_of (x : identity) : bytes := ek_pub (id_key x).

(* --- what is public *)
Definition public_key (k : ec_key) : ec_key := {| ek_curve := ek_curve k; ek_pub := ek_pub k; ek_pri := None |}.
Definition public_identity (x : identity) : identity :=
  {| id_type := id_type x; id_identifier := id_identifier x; id_key := public_key (id_key x); id_signature := id_signature x |}.
(* the chain as a stranger can know it: public keys, not yet validated *)
Definition public_chain (c : chain) : chain :=
  {| ch_root := public_identity (ch_root c); ch_node := public_identity (ch_node c); ch_status := S_UNKNOWN; ch_cache := None |}.
Definition public_keypair (k : keypair) : keypair :=
  {| kp_identifier := kp_identifier k; kp_key := public_key (kp_key k); kp_signature := kp_signature k |}.
Definition public_node (n : node) : node :=
  {| nd_dev_id := nd_dev_id n; nd_chain := public_chain (nd_chain n); nd_keypair := option_map public_keypair (nd_keypair n);
     nd_status := S_UNKNOWN; nd_cache := None |}.

(* --- well-formed objects *)
(* the engine reads the public key back as it is *)
Definition importable (P : prims) (k : ec_key) : Prop := ec_key_import P (Some (ek_pub k)) false = Some (public_key k).
(* and, for a key pair, the private key *)
Definition importable_private (P : prims) (k : ec_key) : Prop :=
  exists d, ek_pri k = Some d /\ ec_key_import P (Some d) true = Some k.
(* keys the engine made *)
Inductive engine_key (P : prims) (k : ec_key) : Prop :=
| made_random s s' : ec_rand_key P P521 s = (Val k, s') -> engine_key P k
| made_import b priv : ec_key_import P (Some b) priv = Some k -> engine_key P k.
(* roots are not signed, nodes are *)
Definition good_identity (P : prims) (x : identity) : Prop :=
  0 < blen (id_identifier x) < 128 /\ importable P (id_key x) /\
  match id_type x with
  | ID_ROOT => id_signature x = None
  | ID_NODE => exists s, id_signature x = Some s /\ good_sig s
  end.
Definition good_chain (P : prims) (c : chain) : Prop := good_identity P (ch_root c) /\ good_identity P (ch_node c).
Definition good_keypair (P : prims) (k : keypair) : Prop :=
  kp_identifier k < 2 ^ 64 /\ importable P (kp_key k) /\ (forall s, kp_signature k = Some s -> good_sig s).
Definition good_node (P : prims) (n : node) : Prop :=
  0 < blen (nd_dev_id n) /\ good_chain P (nd_chain n) /\ (forall k, nd_keypair n = Some k -> good_keypair P k).

(* --- validity, with no cache *)
Definition chain_truth (P : prims) (c : chain) : bool :=
  ec_verify P (id_signature (ch_node c)) (Some (id_key (ch_root c))) (Some (pub_of (ch_node c))).
Definition node_truth (P : prims) (n : node) : bool :=
  chain_truth P (nd_chain n) &&
  match nd_keypair n with
  | None => false
  | Some k => ec_verify P (kp_signature k) (Some (id_key (ch_node (nd_chain n)))) (Some (ek_pub (kp_key k)))
  end.

(* --- histories of one chain: what its user may do with it *)
Inductive chain_op :=
| Validate
| Copy                                        (* go on with a copy *)
| Edit (root node : identity) (s : status).   (* assign the structure's public members *)
Definition chain_step (P : prims) (o : chain_op) (c : chain) : option bool * chain :=
  match o with
  | Validate => let '(b, c') := chain_validate P c in (Some b, c')
  | Copy => (None, match chain_copy (Some c) with Some c' => c' | None => c end)
  | Edit r n s => (None, {| ch_root := r; ch_node := n; ch_status := s; ch_cache := ch_cache c |})
  end.
(* the states an operation starts from, and its answer *)
Fixpoint chain_trace (P : prims) (c : chain) (ops : list chain_op) : list (chain * option bool) :=
  match ops with
  | [] => []
  | o :: r => let '(a, c') := chain_step P o c in (c, a) :: chain_trace P c' r
  end.
Definition answers_right {A} (truth : A -> bool) (t : list (A * option bool)) : Prop :=
  forall c b, In (c, Some b) t -> b = truth c.
Definition no_edit (o : chain_op) : Prop := match o with Edit _ _ _ => False | _ => True end.
(* the messages whose digests are the cache values of a chain *)
Definition all_status : list status := [S_UNKNOWN; S_VALID; S_INVALID].
Definition chain_messages (c : chain) : list bytes :=
  match id_signature (ch_node c) with
  | None => []
  | Some s => map (fun st => pub_of (ch_root c) ++ es_sig s ++ pub_of (ch_node c) ++ [n2b (status_int st)]) all_status
  end.
Definition collision_free (P : prims) (l : list bytes) : Prop := forall x y, In x l -> In y l -> no_collision P x y.
(* the assumptions about every state of a history *)
Definition regular_chain (c : chain) : Prop :=
  full_size (id_key (ch_root c)) /\ full_size (id_key (ch_node c)) /\
  (forall s, id_signature (ch_node c) = Some s -> es_digest s = SHA512).

(* --- histories of one node *)
Inductive node_op :=
| NVerify
| NValidateChain                               (* wickr_identity_chain_validate(node->id_chain) *)
| NCopy
| NRotate (k : keypair) (copy : bool)
| NReplaceChain (c : chain).                   (* assign node->id_chain *)
Definition node_step (P : prims) (o : node_op) (n : node) : option bool * node :=
  match o with
  | NVerify => let '(b, n') := node_verify_signature_chain P n in (Some b, n')
  | NValidateChain => (None, {| nd_dev_id := nd_dev_id n; nd_chain := snd (chain_validate P (nd_chain n));
                                nd_keypair := nd_keypair n; nd_status := nd_status n; nd_cache := nd_cache n |})
  | NCopy => (None, match node_copy (Some n) with Some n' => n' | None => n end)
  | NRotate k copy => (None, snd (node_rotate_keypair n (Some k) copy))
  | NReplaceChain c => (None, {| nd_dev_id := nd_dev_id n; nd_chain := c;
                                 nd_keypair := nd_keypair n; nd_status := nd_status n; nd_cache := nd_cache n |})
  end.
Fixpoint node_trace (P : prims) (n : node) (ops : list node_op) : list (node * option bool) :=
  match ops with
  | [] => []
  | o :: r => let '(a, n') := node_step P o n in (n, a) :: node_trace P n' r
  end.
Definition same_chain_op (o : node_op) : Prop := match o with NReplaceChain _ => False | _ => True end.
Definition node_messages (n : node) : list bytes :=
  match nd_keypair n with
  | Some k => match kp_signature k with
              | Some s => map (fun st => ek_pub (kp_key k) ++ es_sig s ++ [n2b (status_int st)]) all_status
              | None => []
              end
  | None => []
  end.
Definition regular_keypair (n : node) : Prop :=
  forall k, nd_keypair n = Some k -> full_size (kp_key k) /\ (forall s, kp_signature k = Some s -> es_digest s = SHA512).
