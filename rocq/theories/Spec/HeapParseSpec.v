(* What the functions that make an object from bytes owe their callers, in terms of memory.
   [pure] is the result the functional model gives: an object, NULL or undefined behaviour. *)
From Verif.Base Require Import Bytes.
From Verif.Model Require Import Buffer Cipher Ecdsa Kdf Prims Engine Identity Node Stream TransportPacket Keys Payload Exchange Packet Heap HeapObjects HeapParse.
From Verif.Spec Require Import HeapSpec HeapObjectSpec.

(* With enough memory the answer is that of the functional model.  An object is in new blocks of
   its own; the bytes given and everything else in memory are as before, nothing stays behind
   and no block that holds a secret is released as it is. *)
Definition parses_cleanly_on {T V} (inputs : bytes -> Prop) (cells : T -> list cell) (value : T -> V) (pure : option bytes -> res V)
  (public : bytes -> list bytes) (parse : option hbuf -> H (option T)) : Prop :=
  forall secret h b, inputs (b_bytes b) -> heap_ok h -> in_memory h (buf_cells b) -> keeps_secret secret (public (b_bytes b)) ->
    match pure (Some (b_bytes b)) with
    | Val v => exists t h', parse (Some b) never h = Some (Some t, h') /\ value t = v /\ grown h (cells t) h' /\ wiped secret h h'
    | Null => exists h', parse (Some b) never h = Some (None, h') /\ same_memory h h' /\ wiped secret h h'
    | UB => False
    end.
Definition parses_cleanly {T V} : (T -> list cell) -> (T -> V) -> (option bytes -> res V) -> (bytes -> list bytes) -> (option hbuf -> H (option T)) -> Prop :=
  parses_cleanly_on (fun _ => True).
(* Whichever allocations fail:
   - NULL is given for NULL, without effect;
   - an object is the one the functional model gives, in new blocks of its own;
   - NULL is given only if the functional model gives it or some allocation has failed;
   - everything else in memory is as before. *)
Definition parses_safely {T V} (cells : T -> list cell) (value : T -> V) (pure : option bytes -> res V) (public : bytes -> list bytes)
  (parse : option hbuf -> H (option T)) : Prop :=
  (forall fails h, parse None fails h = Some (None, h)) /\
  forall secret fails h b, heap_ok h -> in_memory h (buf_cells b) -> keeps_secret secret (public (b_bytes b)) ->
    match parse (Some b) fails h with
    | None => False
    | Some (None, h') => same_memory h h' /\ wiped secret h h' /\ (pure (Some (b_bytes b)) = Null \/ some_failure fails)
    | Some (Some t, h') => pure (Some (b_bytes b)) = Val (value t) /\ grown h (cells t) h' /\ wiped secret h h'
    end.
(* What holds of all of them: the behaviour is undefined only if one of the allocations whose
   result is written to untested has failed, and blocks stay behind only if [leak]. *)
Definition parses_in_memory {T V} (cells : T -> list cell) (value : T -> V) (pure : option bytes -> res V) (public : bytes -> list bytes)
  (untested : list ctype) (leak : schedule -> bytes -> Prop) (parse : option hbuf -> H (option T)) : Prop :=
  (forall fails h, parse None fails h = Some (None, h)) /\
  forall secret fails h b, heap_ok h -> in_memory h (buf_cells b) -> keeps_secret secret (public (b_bytes b)) ->
    match parse (Some b) fails h with
    | None => exists n ty, In ty untested /\ fails n ty = true
    | Some (None, h') =>
        exists leaked, (leaked = [] \/ leak fails (b_bytes b)) /\ grown h leaked h' /\ wiped secret h h' /\
          (pure (Some (b_bytes b)) = Null \/ some_failure fails)
    | Some (Some t, h') =>
        exists leaked, (leaked = [] \/ leak fails (b_bytes b)) /\ grown h (leaked ++ cells t) h' /\ wiped secret h h' /\
          pure (Some (b_bytes b)) = Val (value t)
    end.
(* what can go wrong *)
Definition parse_crashes {T} (parse : option hbuf -> H (option T)) : Prop :=
  exists fails h b, heap_ok h /\ in_memory h (buf_cells b) /\ parse (Some b) fails h = None.
Definition parse_leaks {T} (parse : option hbuf -> H (option T)) (fails : schedule) : Prop :=
  exists h b h', heap_ok h /\ in_memory h (buf_cells b) /\ parse (Some b) fails h = Some (None, h') /\
    exists x, mem h x = None /\ mem h' x <> None.
(* a secret given in the bytes is in a block that was released as it is *)
Definition parse_exposes {T} (parse : option hbuf -> H (option T)) (secret_of : bytes -> option bytes) : Prop :=
  exists h b t h' s x, heap_ok h /\ in_memory h (buf_cells b) /\ parse (Some b) never h = Some (Some t, h') /\
    secret_of (b_bytes b) = Some s /\ In (x, s) (freed h') /\ ~ In (x, s) (freed h).

(* --- leaks --- *)
Definition never_leaks : schedule -> bytes -> Prop := fun _ _ => False.
Definition leaks_on_failure : schedule -> bytes -> Prop := fun fails _ => some_failure fails.
(* the last bytes are a signature, but not one by SHA-512 *)
Definition odd_signature (b : bytes) : Prop :=
  exists s, ecdsa_result_create_from_buffer (Some (skipn (length b - N.to_nat (signature_size P521)) b)) = Val s /\ es_digest s <> SHA512.
(* a stream key with user data that cannot be made into an object *)
Definition odd_stream_key (fails : schedule) (b : bytes) : Prop :=
  exists m, pb_stream_key_unpack b = Some m /\ pst_user m <> None /\ (stream_key_create_from_proto m = Null \/ some_failure fails).

(* --- what a parser may leave readable in released memory --- *)
(* every part of the input *)
Definition sections (b : bytes) : list bytes :=
  flat_map (fun s => map (fun l => slice b s l) (seq 0 (S (length b)))) (seq 0 (S (length b))).
Definition no_bytes {A} (_ : A) : list bytes := [].
(* what is in a message and what is made from it *)
Definition of_message {M} (unpack : bytes -> option M) (fields public : M -> list bytes) (b : bytes) : list bytes :=
  match unpack b with Some m => fields m ++ public m | None => [] end.
(* the public key of a private one *)
Definition import_public (P : prims) (is_private : bool) (b : bytes) : list bytes :=
  if is_private then match p_d2i P b with Some (pub, _) => [n2b (curve_id P521) :: pub] | None => [] end else [].
Definition osections (o : option bytes) : list bytes := match o with Some b => sections b | None => [] end.
Definition identity_public (P : prims) (m : pb_identity) : list bytes :=
  opt_list (pi_identifier m) ++ osections (pi_signature m) ++
  match pi_sig_key m with Some k => import_public P (match pi_is_private m with Some b => b | None => false end) k | None => [] end.
Definition chain_public (P : prims) (m : pb_chain) : list bytes :=
  opt_plain (identity_public P) (pc_root m) ++ opt_plain (identity_public P) (pc_node m).
Definition keypair_public (m : pb_keypair) : list bytes := osections (pk_signature m).
Definition node_public (P : prims) (m : pb_node) : list bytes :=
  opt_list (pn_devid m) ++ opt_plain (chain_public P) (pn_chain m) ++ opt_plain keypair_public (pn_keypair m).
Definition payload_public (m : pb_payload) : list bytes := [obytes (pm_tag (pp_meta m))].
Definition exchange_public (m : pb_exchange) : list bytes := px_id m :: px_data m :: sections (px_data m).
Definition exchange_set_public (m : pb_exchange_set) : list bytes := flat_map exchange_public (py_exchanges m).
Definition root_keys_public (P : prims) (m : pb_root_keys) : list bytes := import_public P true (obytes (pr_signature m)).
(* a transport packet keeps a copy of the bytes it was read from *)
Definition tpacket_public (b : bytes) : list bytes := b :: sections b.
