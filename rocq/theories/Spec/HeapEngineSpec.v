(* What an operation owes its caller in terms of memory.
   [args]: the blocks of each argument; two arguments may be the same object or share blocks.
   [pure]: the answer the functional model gives: an object, NULL or undefined behaviour.
   [public]: byte strings that may be left readable in released memory; [exposed]: further ones
   that may be after an allocation has failed. *)
From Verif.Base Require Import Bytes Monad.
From Verif.Model Require Import Buffer Cipher Ecdsa Kdf Prims Engine Heap HeapObjects.
From Verif.Spec Require Import HeapSpec HeapObjectSpec CopySpec HeapParseSpec.

Local Open Scope N_scope.

Definition all_in_memory (h : heap) (args : list (list cell)) : Prop := Forall (in_memory h) args.

(* With enough memory the answer is that of the functional model.  An object is in new blocks of
   its own; the arguments and everything else in memory are as before, nothing stays behind
   and no block that holds a secret is released as it is. *)
Definition performs_cleanly {T V} (cells : T -> list cell) (value : T -> V) (args : list (list cell)) (pure : res V)
  (public : list bytes) (op : H (option T)) : Prop :=
  forall secret h, heap_ok h -> all_in_memory h args -> keeps_secret secret public ->
    match pure with
    | Val v => exists t h', op never h = Some (Some t, h') /\ value t = v /\ grown h (cells t) h' /\ wiped secret h h'
    | Null => exists h', op never h = Some (None, h') /\ same_memory h h' /\ wiped secret h h'
    | UB => op never h = None
    end.
(* The same whichever allocations fail: then NULL may be given instead. *)
Definition performs_safely {T V} (cells : T -> list cell) (value : T -> V) (args : list (list cell)) (pure : res V)
  (public : list bytes) (op : H (option T)) : Prop :=
  forall secret fails h, heap_ok h -> all_in_memory h args -> keeps_secret secret public ->
    match op fails h with
    | None => pure = UB
    | Some (None, h') => same_memory h h' /\ wiped secret h h' /\ (pure = Null \/ some_failure fails)
    | Some (Some t, h') => pure = Val (value t) /\ grown h (cells t) h' /\ wiped secret h h'
    end.
(* What holds of all of them: the behaviour is undefined only if that of the functional model is
   or one of the allocations whose result is used untested has failed, and blocks stay behind
   only if [leak]. *)
Definition performs_in_memory {T V} (cells : T -> list cell) (value : T -> V) (args : list (list cell)) (pure : res V)
  (public exposed : list bytes) (untested : list ctype) (leak : schedule -> Prop) (op : H (option T)) : Prop :=
  forall secret fails h, heap_ok h -> all_in_memory h args -> keeps_secret secret public ->
    (some_failure fails -> keeps_secret secret exposed) ->
    match op fails h with
    | None => pure = UB \/ exists n ty, In ty untested /\ fails n ty = true
    | Some (None, h') =>
        exists leaked, (leaked = [] \/ leak fails) /\ grown h leaked h' /\ wiped secret h h' /\ (pure = Null \/ some_failure fails)
    | Some (Some t, h') =>
        exists leaked, (leaked = [] \/ leak fails) /\ grown h (leaked ++ cells t) h' /\ wiped secret h h' /\ pure = Val (value t)
    end.
(* the same for an operation that answers yes or no: after a failure the answer may be no *)
Definition answers_in_memory (args : list (list cell)) (pure : bool) (untested : list ctype) (leak : schedule -> Prop) (op : H bool) : Prop :=
  forall secret fails h, heap_ok h -> all_in_memory h args -> keeps_secret secret [] ->
    match op fails h with
    | None => exists n ty, In ty untested /\ fails n ty = true
    | Some (b, h') =>
        exists leaked, (leaked = [] \/ leak fails) /\ grown h leaked h' /\ wiped secret h h' /\ (b = pure \/ b = false /\ some_failure fails)
    end.
(* what can go wrong *)
Definition op_crashes {A} (args : list (list cell)) (op : H A) : Prop :=
  exists fails h, heap_ok h /\ all_in_memory h args /\ op fails h = None.
(* the operation gives [answer], but a block stays behind, and holds [kept] *)
Definition op_leaves {A} (args : list (list cell)) (fails : schedule) (answer : A) (kept : bytes) (op : H A) : Prop :=
  exists h h', heap_ok h /\ all_in_memory h args /\ op fails h = Some (answer, h') /\ exists x, mem h x = None /\ mem h' x = Some kept.
(* a block that begins with the secret was released as it is *)
Definition op_exposes {A} (args : list (list cell)) (fails : schedule) (secret : bytes) (op : H A) : Prop :=
  exists h a h' x after, heap_ok h /\ all_in_memory h args /\ op fails h = Some (a, h') /\
    In (x, secret ++ after) (freed h') /\ ~ In x (map fst (freed h)).

Definition oc {T} (cells : T -> list cell) (o : option T) : list cell := match o with Some t => cells t | None => [] end.
Definition never_leaks_op : schedule -> Prop := fun _ => False.

(* what making a buffer allocates *)
Definition buffer_kinds : list ctype := [T_buffer; T_data].
(* what the engine drew, if the generator gave anything *)
Definition drawn (P : prims) (s : nat) (len : N) : list bytes := opt_list (p_rand P s len).

(* --- encryption: the nonce is public --- *)
Definition encrypt_public (P : prims) (c : cipher) (iv : option hbuf) (s : nat) : list bytes :=
  match iv with Some v => [b_bytes v] | None => drawn P s (iv_len c) end.
Definition iv_untested (iv : option hbuf) : list ctype := match iv with Some _ => [] | None => buffer_kinds end.
Definition encrypt_untested (iv : option hbuf) : list ctype := T_cipher_result :: iv_untested iv.
(* the caller's nonce is longer than the cipher's *)
Definition iv_too_long (c : cipher) (iv : option hbuf) : schedule -> Prop :=
  fun _ => exists v, iv = Some v /\ iv_len c < blen (b_bytes v).

(* --- signatures: the private key is not one --- *)
Definition sign_leak (P : prims) (key : option hkey) (fails : schedule) : Prop :=
  some_failure fails \/ exists k q, key = Some k /\ hkey_pri k = Some q /\ p_d2i P (b_bytes q) = None.

(* --- key derivation --- *)
(* [len] bytes that begin with [c] and go on with zeros *)
Definition padded (len : N) (c : bytes) : bytes := firstn (N.to_nat len) (c ++ repeat x00 (N.to_nat len)).
(* making a salt: the salt, and for bcrypt the random bytes and the setting it is cut from *)
Definition salt_public (P : prims) (a : kdf_algo) (s : nat) : list bytes :=
  match ka_kind a with
  | KDF_BCRYPT =>
      flat_map (fun r => r :: match p_gensalt P (ka_cost a) r with
                              | Some setting => [padded (ka_salt_size a + 8) (firstn (N.to_nat (ka_salt_size a + 7)) setting);
                                                 firstn (N.to_nat (ka_salt_size a)) (skipn 7%nat (firstn (N.to_nat (ka_salt_size a + 7)) setting))]
                              | None => []
                              end) (drawn P s 16)
  | _ => drawn P s (ka_salt_size a)
  end.
(* hashing with bcrypt: the setting, and the passphrase itself *)
Definition hash_public (a : kdf_algo) (salt : option bytes) (passphrase : bytes) : list bytes :=
  match ka_kind a, salt with
  | KDF_BCRYPT, Some x => [padded 64 (bcrypt_header ++ x); passphrase ++ [x00]]
  | _, _ => []
  end.
Definition empty_bcrypt (a : kdf_algo) (passphrase : bytes) : Prop := ka_kind a = KDF_BCRYPT /\ passphrase = [].
Definition kdf_leak (a : kdf_algo) (passphrase : bytes) (fails : schedule) : Prop := some_failure fails \/ empty_bcrypt a passphrase.
(* the derived key *)
Definition derived (P : prims) (m : kdf_meta) (passphrase : bytes) : list bytes :=
  match kdf_algo_hash P m passphrase with Val k => [k] | _ => [] end.
(* encryption under a passphrase: all of the result and its parts may be left *)
Definition kdf_cipher_public (P : prims) (a : kdf_algo) (c : cipher) (value passphrase : bytes) (s : nat) : list bytes :=
  salt_public P a s ++ drawn P (S s) (iv_len c) ++
  match fst (perform_kdf P a (Some passphrase) s) with
  | Val k => opt_list (kdf_meta_serialize (Some (kr_meta k))) ++
             match fst (aes256_encrypt P (Some value) None (Some {| ck_cipher := c; ck_data := kr_hash k |}) None (S s)) with
             | Val r => cr_plain r ++ opt_list (cipher_result_serialize (Some r))
             | _ => []
             end
  | _ => []
  end.
(* the key derived with the salt that is drawn *)
Definition derived_now (P : prims) (a : kdf_algo) (passphrase : bytes) (s : nat) : list bytes :=
  match fst (perform_kdf P a (Some passphrase) s) with Val k => [kr_hash k] | _ => [] end.
(* decryption under a passphrase: parts of the blob, and what bcrypt leaves *)
Definition kdf_decipher_public (b passphrase : bytes) : list bytes :=
  sections b ++ match kdf_meta_create_with_buffer (Some b) with Val m => hash_public (km_algo m) (km_salt m) passphrase | _ => [] end.
Definition kdf_decipher_derived (P : prims) (b passphrase : bytes) : list bytes :=
  match kdf_meta_create_with_buffer (Some b) with Val m => derived P m passphrase | _ => [] end.
(* a key is derived, and what follows is not a ciphertext *)
Definition not_a_ciphertext (P : prims) (b passphrase : bytes) : Prop :=
  exists m k size, kdf_meta_create_with_buffer (Some b) = Val m /\ kdf_algo_hash P m passphrase = Val k /\
    kdf_meta_size_with_buffer (Some b) = Val size /\ cipher_result_from_buffer (Some (skipn (N.to_nat size) b)) = Null.
Definition kdf_decipher_leak (P : prims) (b passphrase : bytes) (fails : schedule) : Prop :=
  some_failure fails \/ not_a_ciphertext P b passphrase \/
  exists m, kdf_meta_create_with_buffer (Some b) = Val m /\ empty_bcrypt (km_algo m) passphrase.
(* what is left readable in released memory, whichever allocations fail: nothing but [public] *)
Definition hides_op {A} (args : list (list cell)) (public : list bytes) (op : H A) : Prop :=
  forall secret fails h, heap_ok h -> all_in_memory h args -> keeps_secret secret public ->
    match op fails h with Some (_, h') => wiped secret h h' | None => True end.
(* an answer, with enough memory; and whichever allocations fail *)
Definition answers_cleanly (args : list (list cell)) (pure : bool) (op : H bool) : Prop :=
  forall secret h, heap_ok h -> all_in_memory h args -> keeps_secret secret [] ->
    exists h', op never h = Some (pure, h') /\ same_memory h h' /\ wiped secret h h'.
Definition answers_safely (args : list (list cell)) (pure : bool) (op : H bool) : Prop :=
  forall secret fails h, heap_ok h -> all_in_memory h args -> keeps_secret secret [] ->
    match op fails h with
    | None => False
    | Some (b, h') => same_memory h h' /\ wiped secret h h' /\ (b = pure \/ b = false /\ some_failure fails)
    end.
(* making a salt and hashing with it *)
Definition perform_kdf_public (P : prims) (a : kdf_algo) (passphrase : bytes) (s : nat) : list bytes :=
  salt_public P a s ++ match fst (kdf_algo_generate_salt P a s) with Val x => hash_public a (Some x) passphrase | _ => [] end.
(* bcrypt's salt and its header fit in a buffer *)
Definition salt_fits (a : kdf_algo) : Prop := ka_kind a = KDF_BCRYPT -> size_ok (ka_salt_size a + 8) = true.
