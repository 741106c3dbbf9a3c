(* What an operation that changes objects in place, or takes them over, owes its caller in terms of
   memory; and what validation and the making of contexts may leave readable in released memory. *)
From Verif.Base Require Import Bytes Monad.
From Verif.Model Require Import Buffer Cipher Ecdsa Kdf Prims Engine Identity Node Keys Handshake Ctx Proto Heap HeapObjects HeapMessages HeapParse HeapContext.
From Verif.Spec Require Import HeapSpec HeapObjectSpec CopySpec HeapParseSpec HeapEngineSpec HeapProtocolSpec HeapGenerateSpec.
Local Open Scope N_scope.

(* [h'] is [h] with exactly the blocks [new] in place of the blocks [old]; a block may be in both *)
Definition changed (h : heap) (old new : list cell) (h' : heap) : Prop :=
  heap_ok h' /\ in_memory h' new /\
  (forall b, In b (map fst new) -> ~ In b (map fst old) -> mem h b = None) /\
  (forall b, In b (map fst old) -> ~ In b (map fst new) -> mem h' b = None) /\
  (forall b, ~ In b (map fst old) -> ~ In b (map fst new) -> mem h' b = mem h b).
(* the arguments that are only read share no block with the object that is changed *)
Definition separate (args : list (list cell)) (owned : list cell) : Prop :=
  Forall (fun a => forall b, In b (map fst a) -> ~ In b (map fst owned)) args.

(* [owned]: the blocks of the object that is changed; [left]: the blocks there are instead once the
   operation has answered; [right]: what the answer is to be. *)
Definition changes_cleanly {A} (args : list (list cell)) (owned : list cell) (left : A -> list cell) (right : A -> Prop) (public : list bytes) (op : H A) : Prop :=
  forall secret h, heap_ok h -> in_memory h owned -> all_in_memory h args -> separate args owned -> keeps_secret secret public ->
    exists a h', op never h = Some (a, h') /\ changed h owned (left a) h' /\ wiped secret h h' /\ right a.
Definition changes_safely {A} (args : list (list cell)) (owned : list cell) (left : A -> list cell) (right : schedule -> A -> Prop) (public : list bytes) (op : H A) : Prop :=
  forall secret fails h, heap_ok h -> in_memory h owned -> all_in_memory h args -> separate args owned -> keeps_secret secret public ->
    exists a h', op fails h = Some (a, h') /\ changed h owned (left a) h' /\ wiped secret h h' /\ right fails a.
Definition changes_in_memory {A} (args : list (list cell)) (owned : list cell) (left : A -> list cell) (right : schedule -> A -> Prop)
  (public exposed : list bytes) (untested : list ctype) (leak : schedule -> Prop) (op : H A) : Prop :=
  forall secret fails h, heap_ok h -> in_memory h owned -> all_in_memory h args -> separate args owned -> keeps_secret secret public ->
    (some_failure fails -> keeps_secret secret exposed) ->
    match op fails h with
    | None => exists n ty, In ty untested /\ fails n ty = true
    | Some (a, h') => exists leaked, (leaked = [] \/ leak fails) /\ changed h owned (leaked ++ left a) h' /\ wiped secret h h' /\ right fails a
    end.
Definition hides_change {A} (args : list (list cell)) (owned : list cell) (public : list bytes) (op : H A) : Prop :=
  forall secret fails h, heap_ok h -> in_memory h owned -> all_in_memory h args -> separate args owned -> keeps_secret secret public ->
    match op fails h with Some (_, h') => wiped secret h h' | None => True end.
(* an operation that takes [owned] over when it makes an object, and leaves it when it does not *)
Definition taken {T} (cells : T -> list cell) (owned : list cell) (o : option T) : list cell := match o with Some t => cells t | None => owned end.
Definition makes {T V} (value : T -> V) (pure : res V) (fails : schedule) (o : option T) : Prop :=
  match o with Some t => pure = Val (value t) | None => pure = Null \/ some_failure fails end.
(* the same when nothing fails *)
Definition makes_ok {T V} (value : T -> V) (pure : res V) (o : option T) : Prop := match o with Some t => pure = Val (value t) | None => pure = Null end.
(* what can go wrong: a crash, a block that stays behind, and a secret that is left readable *)
Definition change_crashes {A} (args : list (list cell)) (owned : list cell) (op : H A) : Prop :=
  exists fails h, heap_ok h /\ in_memory h owned /\ all_in_memory h args /\ separate args owned /\ op fails h = None.
Definition change_leaves {A} (args : list (list cell)) (owned : list cell) (left : A -> list cell) (fails : schedule) (kept : bytes) (op : H A) : Prop :=
  exists h a h', heap_ok h /\ in_memory h owned /\ all_in_memory h args /\ separate args owned /\ op fails h = Some (a, h') /\
    exists x, mem h x = None /\ mem h' x = Some kept /\ ~ In x (map fst (left a)).

Definition change_exposes {A} (args : list (list cell)) (owned : list cell) (fails : schedule) (secret : bytes) (op : H A) : Prop :=
  exists h a h' x rest, heap_ok h /\ in_memory h owned /\ all_in_memory h args /\ separate args owned /\ op fails h = Some (a, h') /\
    In (x, secret ++ rest) (freed h') /\ ~ In x (map fst (freed h)).

(* --- validation --- *)
Definition statuses : list status := [S_UNKNOWN; S_VALID; S_INVALID].
(* what a cached status is the digest of: public keys, a signature and the status *)
Definition chain_input (c : chain) (s : status) : option bytes :=
  match id_signature (ch_node c) with
  | None => None
  | Some g => buffer_concat_multi [Some (ek_pub (id_key (ch_root c))); Some (es_sig g); Some (ek_pub (id_key (ch_node c))); Some [n2b (status_int s)]]
  end.
Definition node_input (n : node) (s : status) : option bytes :=
  match nd_keypair n with
  | None => None
  | Some k => match kp_signature k with
              | None => None
              | Some g => buffer_concat_multi [Some (ek_pub (kp_key k)); Some (es_sig g); Some [n2b (status_int s)]]
              end
  end.
Definition with_digests (P : prims) (l : list bytes) : list bytes := l ++ map (p_sha P SHA512) l.
Definition chain_strings (P : prims) (c : chain) : list bytes := with_digests P (flat_map (fun s => opt_list (chain_input c s)) statuses) ++ opt_list (ch_cache c).
Definition node_strings (P : prims) (n : node) : list bytes :=
  with_digests P (flat_map (fun s => opt_list (node_input n s)) statuses) ++ opt_list (nd_cache n) ++ chain_strings P (nd_chain n).
(* the signature of the root over the node's key *)
Definition chain_signed (P : prims) (c : chain) : bool := ec_verify P (id_signature (ch_node c)) (Some (id_key (ch_root c))) (Some (ek_pub (id_key (ch_node c)))).
(* the chain may be called valid: its signature is right, or a status of its own says so *)
Definition chain_passes (P : prims) (c : chain) : Prop := chain_signed P c = true \/ chain_has_valid_cache P c = true /\ ch_status c = S_VALID.
(* after a failure validation may say no, and the status may not be cached; it says yes only if
   the signature is right *)
Definition chain_judged (P : prims) (fails : schedule) (c : chain) (b : bool) (c' : chain) : Prop :=
  (b, c') = chain_validate P c \/
  some_failure fails /\ (b = true -> chain_signed P c = true) /\
  ch_root c' = ch_root c /\ ch_node c' = ch_node c /\ ch_status c' = (if b then S_VALID else S_INVALID) /\
  (ch_cache c' = None \/ ch_cache c' = chain_make_status_cache P c').
Definition node_judged (P : prims) (fails : schedule) (n : node) (b : bool) (n' : node) : Prop :=
  (b, n') = node_verify_signature_chain P n \/
  some_failure fails /\ (b = true -> chain_passes P (nd_chain n) /\ keypair_verify_owner P (nd_keypair n) (Some (ch_node (nd_chain n))) = true) /\
  nd_dev_id n' = nd_dev_id n /\ nd_keypair n' = nd_keypair n /\ ch_root (nd_chain n') = ch_root (nd_chain n) /\ ch_node (nd_chain n') = ch_node (nd_chain n) /\
  nd_status n' = (if b then S_VALID else S_INVALID) /\ (nd_cache n' = None \/ nd_cache n' = node_make_status_cache P n').

(* the structure and its parts stay where they are; only the status and the cached digest change *)
Definition chain_in_place (c c' : hch) : Prop := hch_addr c' = hch_addr c /\ hch_root c' = hch_root c /\ hch_node c' = hch_node c.
Definition node_in_place (n n' : hnd) : Prop :=
  hnd_addr n' = hnd_addr n /\ hnd_dev_id n' = hnd_dev_id n /\ hnd_keypair n' = hnd_keypair n /\ chain_in_place (hnd_chain n) (hnd_chain n').
Definition chain_after (P : prims) (c : hch) (fails : schedule) (a : bool * hch) : Prop :=
  chain_in_place c (snd a) /\ chain_judged P fails (ch_value c) (fst a) (ch_value (snd a)).
Definition node_after (P : prims) (n : hnd) (fails : schedule) (a : bool * hnd) : Prop :=
  node_in_place n (snd a) /\ node_judged P fails (nd_value n) (fst a) (nd_value (snd a)).
(* when nothing fails *)
Definition chain_after_ok (P : prims) (c : hch) (a : bool * hch) : Prop := chain_in_place c (snd a) /\ (fst a, ch_value (snd a)) = chain_validate P (ch_value c).
Definition node_after_ok (P : prims) (n : hnd) (a : bool * hnd) : Prop := node_in_place n (snd a) /\ (fst a, nd_value (snd a)) = node_verify_signature_chain P (nd_value n).
Definition chain_left (a : bool * hch) : list cell := ch_cells (snd a).
Definition node_left (a : bool * hnd) : list cell := nd_cells (snd a).

(* --- contexts --- *)
Definition any_kind : list ctype :=
  [T_data; T_buffer; T_array; T_ec_key; T_ecdsa_result; T_cipher_key; T_cipher_result; T_kdf_meta; T_kdf_result; T_fingerprint; T_identity; T_identity_chain;
   T_ephemeral_keypair; T_node; T_packet_meta; T_payload; T_key_exchange; T_key_exchange_set; T_packet; T_parse_result; T_decode_result; T_encoder_result;
   T_root_keys; T_storage_keys; T_dev_info; T_stream_key; T_stream_iv; T_stream_ctx; T_transport_root_key; T_handshake_res; T_transport_packet; T_handshake;
   T_transport_ctx; T_ecdh_ctx; T_ctx; T_ctx_gen_result; T_ctx_packet; T_proto; T_openssl].
(* the chain of a new context: the root is given, the node is new *)
Definition new_root (k : root_keys) (identifier : bytes) : identity := {| id_type := ID_ROOT; id_identifier := identifier; id_key := rk_signature k; id_signature := None |}.
Definition new_chain (P : prims) (k : root_keys) (identifier : bytes) (s : nat) : res chain :=
  match fst (node_identity_gen P (Some (new_root k identifier)) None s) with
  | Val n => Val {| ch_root := new_root k identifier; ch_node := n; ch_status := S_UNKNOWN; ch_cache := None |}
  | Null => Null
  | UB => UB
  end.
(* the root's signature over it is wrong: the two halves of the root key do not belong together *)
Definition new_chain_rejected (P : prims) (k : root_keys) (identifier : bytes) (s : nat) : Prop :=
  exists c, new_chain P k identifier s = Val c /\ chain_signed P c = false.
(* public keys, identifiers, signatures and digests of them *)
Definition gen_strings (P : prims) (k : root_keys) (identifier : bytes) (s : nat) : list bytes :=
  identifier :: ek_pub (rk_signature k) :: node_gen_public P (Some (new_root k identifier)) None s ++
  plain_of (fun c => ch_plain c ++ chain_strings P c) (new_chain P k identifier s).
(* blocks may stay behind after a failure, when the root's private key cannot be decoded, and when
   its signature is wrong *)
Definition gen_leak (P : prims) (k : root_keys) (identifier : bytes) (s : nat) (fails : schedule) : Prop :=
  some_failure fails \/ (exists q, ek_pri (rk_signature k) = Some q /\ p_d2i P q = None) \/ new_chain_rejected P k identifier s.
(* after a failure the status of the chain may not be cached *)
Definition uncached (g : gen_result) : gen_result :=
  {| gr_ctx := {| cx_dev := cx_dev (gr_ctx g);
                  cx_chain := {| ch_root := ch_root (cx_chain (gr_ctx g)); ch_node := ch_node (cx_chain (gr_ctx g)); ch_status := ch_status (cx_chain (gr_ctx g)); ch_cache := None |};
                  cx_storage := cx_storage (gr_ctx g); cx_header_key := cx_header_key (gr_ctx g); cx_version := cx_version (gr_ctx g) |};
     gr_recovery_key := gr_recovery_key g; gr_root_keys := gr_root_keys g |}.
Definition uncached_of (pure : res gen_result) (g : gen_result) : Prop := exists full, pure = Val full /\ g = uncached full.
(* what is generated first: the root keys *)
Definition of_new_keys {A} (P : prims) (s : nat) (none : A) (f : root_keys -> A) : A := match fst (root_keys_generate P s) with Val k => f k | _ => none end.
Definition with_sig (k : root_keys) (sk : option ec_key) : root_keys := {| rk_signature := match sk with Some x => x | None => rk_signature k end; rk_node := rk_node k; rk_remote := rk_remote k |}.
(* what is recovered first: the root keys, from a backup and the key it was encrypted with *)
Definition of_recovered {A} (P : prims) (backup : bytes) (k : cipher_key) (none : A) (f : root_keys -> A) : A :=
  match ctx_gen_import_recovery P (Some backup) (Some k) with Val x => f x | _ => none end.
Definition recover_strings (P : prims) (backup : bytes) (k : cipher_key) (identifier : bytes) (s : nat) : list bytes :=
  recovery_public P (Some backup) (Some k) ++ of_recovered P backup k [] (fun x => gen_strings P x identifier s).
Definition passphrase_strings (P : prims) (exported passphrase backup identifier : bytes) (s : nat) : list bytes :=
  unprotect_public P no_bytes (Some exported) (Some passphrase) ++
  plain_of (fun k => recover_strings P backup k identifier s) (import_recovery_key_passphrase P (Some exported) (Some passphrase)).
(* a stored context: the two identities in it *)
Definition ctx_public (P : prims) (m : pb_ctx) : list bytes := opt_plain (chain_public P) (px_chain m).
Definition ctx_bytes_public (P : prims) : bytes -> list bytes := of_message pb_ctx_unpack ctx_fields (ctx_public P).
Definition parse_kinds : list ctype := T_ec_key :: T_ecdsa_result :: T_cipher_key :: buffer_kinds.
