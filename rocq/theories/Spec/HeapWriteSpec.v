(* What the functions that turn an object into bytes owe their callers, in terms of memory.
   [pure] is the result the functional model gives: bytes, NULL or undefined behaviour. *)
From Verif.Base Require Import Bytes.
From Verif.Model Require Import Buffer Cipher Ecdsa Kdf Prims Engine Identity Node Stream TransportPacket Keys Payload Exchange Packet Ctx Heap HeapObjects.
From Verif.Spec Require Import HeapSpec HeapObjectSpec.
Local Open Scope N_scope.

(* With enough memory the answer is that of the functional model.  The bytes are in a new buffer;
   the object and everything else in memory are as before, nothing stays behind and no block
   that holds a secret is released as it is. *)
Definition writes_cleanly {T V} (cells : T -> list cell) (value : T -> V) (pure : V -> res bytes) (public : V -> list bytes)
  (write : option T -> H (option hbuf)) : Prop :=
  forall secret h t, heap_ok h -> in_memory h (cells t) -> keeps_secret secret (public (value t)) ->
    match pure (value t) with
    | Val c => exists b h', write (Some t) never h = Some (Some b, h') /\ b_bytes b = c /\ grown h (buf_cells b) h' /\ wiped secret h h'
    | Null => exists h', write (Some t) never h = Some (None, h') /\ same_memory h h' /\ wiped secret h h'
    | UB => write (Some t) never h = None
    end.
(* Whichever allocations fail:
   - NULL is given for NULL, without effect;
   - bytes are those of the functional model, in a new buffer;
   - NULL is given only if the functional model gives it or some allocation has failed;
   - everything else in memory is as before. *)
Definition null_is_null {T} (write : option T -> H (option hbuf)) : Prop := forall fails h, write None fails h = Some (None, h).
Definition writes_safely {T V} (cells : T -> list cell) (value : T -> V) (pure : V -> res bytes) (public : V -> list bytes)
  (write : option T -> H (option hbuf)) : Prop :=
  null_is_null write /\
  forall secret fails h t, heap_ok h -> in_memory h (cells t) -> keeps_secret secret (public (value t)) ->
    match write (Some t) fails h with
    | None => False
    | Some (None, h') => same_memory h h' /\ wiped secret h h' /\ (pure (value t) = Null \/ some_failure fails)
    | Some (Some b, h') => pure (value t) = Val (b_bytes b) /\ grown h (buf_cells b) h' /\ wiped secret h h'
    end.
(* What holds of all of them.  The behaviour is undefined only if that of the functional model is
   or one of the allocations whose result is used untested has failed.  After a failed allocation
   a [leaky] function may leave blocks behind, and the bytes may be [wrong] ones. *)
Definition writes_in_memory {T V} (cells : T -> list cell) (value : T -> V) (pure : V -> res bytes) (wrong : V -> bytes -> Prop)
  (public : V -> list bytes) (untested : list ctype) (leaky : bool) (write : option T -> H (option hbuf)) : Prop :=
  forall secret fails h t, heap_ok h -> in_memory h (cells t) -> keeps_secret secret (public (value t)) ->
    match write (Some t) fails h with
    | None => pure (value t) = UB \/ exists n ty, In ty untested /\ fails n ty = true
    | Some (None, h') =>
        exists leaked, (leaked = [] \/ leaky = true /\ some_failure fails) /\ grown h leaked h' /\ wiped secret h h' /\
          (pure (value t) = Null \/ some_failure fails)
    | Some (Some b, h') =>
        exists leaked, (leaked = [] \/ leaky = true /\ some_failure fails) /\ grown h (leaked ++ buf_cells b) h' /\ wiped secret h h' /\
          (pure (value t) = Val (b_bytes b) \/ some_failure fails /\ wrong (value t) (b_bytes b))
    end.
(* what can go wrong *)
Definition write_crashes {T V} (cells : T -> list cell) (value : T -> V) (good : V -> Prop) (write : option T -> H (option hbuf)) : Prop :=
  exists fails h t, heap_ok h /\ in_memory h (cells t) /\ good (value t) /\ write (Some t) fails h = None.
Definition write_leaks {T V} (cells : T -> list cell) (value : T -> V) (good : V -> Prop) (write : option T -> H (option hbuf)) : Prop :=
  exists fails h t h', heap_ok h /\ in_memory h (cells t) /\ good (value t) /\ write (Some t) fails h = Some (None, h') /\
    exists x, mem h x = None /\ mem h' x <> None.
(* bytes are returned, but other ones than with enough memory *)
Definition write_spoils {T V} (cells : T -> list cell) (value : T -> V) (pure : V -> res bytes) (good : V -> Prop)
  (write : option T -> H (option hbuf)) : Prop :=
  exists fails h t b c h', heap_ok h /\ in_memory h (cells t) /\ good (value t) /\ write (Some t) fails h = Some (Some b, h') /\
    pure (value t) = Val c /\ b_bytes b <> c.
(* a secret of the object is in a block that was released as it is *)
Definition write_exposes {T V} (cells : T -> list cell) (value : T -> V) (secret_of : V -> bytes) (write : option T -> H (option hbuf)) : Prop :=
  exists h t b h' before after x, heap_ok h /\ in_memory h (cells t) /\ write (Some t) never h = Some (Some b, h') /\
    In (x, before ++ secret_of (value t) ++ after) (freed h') /\ ~ In x (map fst (freed h)).
(* no block that holds a secret is released as it is, whichever allocations fail *)
Definition write_wipes {T V} (cells : T -> list cell) (value : T -> V) (public : V -> list bytes) (write : option T -> H (option hbuf)) : Prop :=
  forall secret fails h t r h', heap_ok h -> in_memory h (cells t) -> keeps_secret secret (public (value t)) ->
    write (Some t) fails h = Some (r, h') -> wiped secret h h'.

(* --- the bytes there are after a failed allocation --- *)
Definition never_wrong {V} (_ : V) (_ : bytes) : Prop := False.
(* a signature without the padding its second byte announces *)
Definition unpadded (s : ecdsa_result) : bytes :=
  n2b (N.lor (N.shiftl (curve_id (es_curve s)) 4) (digest_id (es_digest s))) ::
  n2b (wsub64 (wsub64 (signature_size (es_curve s)) (blen (es_sig s))) 2 mod 256) :: es_sig s.
(* [m'] is the message [m] but for such signatures *)
Definition identity_spoiled (x : identity) (m m' : pb_identity) : Prop :=
  exists s, id_signature x = Some s /\
    m' = {| pi_identifier := pi_identifier m; pi_sig_key := pi_sig_key m; pi_signature := Some (unpadded s); pi_type := pi_type m;
            pi_is_private := pi_is_private m |}.
Definition or_same {M} (R : M -> M -> Prop) (m m' : M) : Prop := m' = m \/ R m m'.
Definition chain_spoiled (c : chain) (m m' : pb_chain) : Prop :=
  exists r n r' n', m = {| pc_root := Some r; pc_node := Some n |} /\ m' = {| pc_root := Some r'; pc_node := Some n' |} /\
    or_same (identity_spoiled (ch_root c)) r r' /\ or_same (identity_spoiled (ch_node c)) n n'.
Definition keypair_spoiled (k : keypair) (m m' : pb_keypair) : Prop :=
  exists s, kp_signature k = Some s /\
    m' = {| pk_identifier := pk_identifier m; pk_ec_key := pk_ec_key m; pk_signature := Some (unpadded s) |}.
Definition node_spoiled (n : node) (m m' : pb_node) : Prop :=
  exists c c', pn_chain m = Some c /\ pn_chain m' = Some c' /\ pn_devid m' = pn_devid m /\ or_same (chain_spoiled (nd_chain n)) c c' /\
    (pn_keypair m' = pn_keypair m \/
     exists kp k k', nd_keypair n = Some kp /\ pn_keypair m = Some k /\ pn_keypair m' = Some k' /\ keypair_spoiled kp k k').
Definition ctx_spoiled (x : ctx) (m m' : pb_ctx) : Prop :=
  exists c c', px_chain m = Some c /\ px_chain m' = Some c' /\ px_storage m' = px_storage m /\ chain_spoiled (cx_chain x) c c'.
Definition not_spoiled {V M} (_ : V) (_ _ : M) : Prop := False.
(* the bytes of such a message *)
Definition packs_spoiled {V M} (to_message : V -> option M) (pack : M -> bytes) (spoiled : V -> M -> M -> Prop) (v : V) (b : bytes) : Prop :=
  exists m m', to_message v = Some m /\ spoiled v m m' /\ b = pack m'.

(* --- what a writer may leave readable in released memory: bytes that are made on the way --- *)
Definition sig_written (s : ecdsa_result) : list bytes := unpadded s :: opt_list (ecdsa_result_serialize (Some s)).
Definition id_written (x : identity) : list bytes := opt_plain sig_written (id_signature x).
Definition ch_written (c : chain) : list bytes := id_written (ch_root c) ++ id_written (ch_node c).
Definition kp_written (k : keypair) : list bytes := opt_plain sig_written (kp_signature k).
Definition nd_written (n : node) : list bytes := ch_written (nd_chain n) ++ opt_plain kp_written (nd_keypair n).
Definition kx_written (x : key_exchange) : list bytes := opt_list (cipher_result_serialize (Some (kx_text x))).
Definition xs_written (s : exchange_set) : list bytes := flat_map (opt_plain kx_written) (xs_items s).
Definition pt_written (p : packet) : list bytes := sig_written (pt_signature p).
Definition tp_written (p : tpacket) : list bytes := opt_list (tmeta_serialize (tp_meta p)).
(* of these the keys themselves *)
Definition ck_written (k : cipher_key) : list bytes := opt_list (cipher_key_serialize (Some k)).
Definition sk_written (k : storage_keys) : list bytes := ck_written (sk_local k) ++ ck_written (sk_remote k).
Definition st_written (k : stream_key) : list bytes := ck_written (sk_cipher k).
Definition cx_written (x : ctx) : list bytes := ch_written (cx_chain x) ++ sk_written (cx_storage x).
