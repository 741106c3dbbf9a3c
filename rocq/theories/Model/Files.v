(* Model of the file operations of openssl_suite.c and of openssl_file_suite.c.
   The file system has names (paths) for numbered files, so that two paths may name one file.
   Which system calls fail, and how, is a parameter [os]; every state the file system goes
   through is logged, so that theorems can speak of a crash at any point.
   Simplifications: writes reach the file at once (no stdio buffer), except that fclose may leave
   any contents when it fails; paths name regular files; nobody else changes the files
   meanwhile; memory allocations of fixed size do not fail. *)
From Verif.Base Require Import Bytes Monad.
From Verif.Model Require Import Buffer Cipher Ecdsa Prims Engine.
Local Open Scope N_scope.

Record fs := { fs_names : bytes -> option nat; fs_data : nat -> bytes; fs_next : nat }.
(* what the file at a path contains *)
Definition content (f : fs) (p : bytes) : option bytes := option_map (fs_data f) (fs_names f p).

(* failures: of the two fopen calls; for read or write number i, [Some k] when only k bytes are
   transferred; [Some c] when fclose of the output fails and leaves c; of rename and remove.
   [os_junk n] is what n fresh bytes of memory contain. *)
Record os := { os_open_source : bool; os_open_temp : bool; os_read : nat -> option nat; os_write : nat -> option nat;
               os_close : option bytes; os_rename : bool; os_remove : bool; os_junk : N -> bytes }.

(* [w_log]: entry (n, f) stands for the states f 0, ..., f n *)
Record world := { w_fs : fs; w_log : list (nat * (nat -> fs)); w_reads : nat; w_writes : nat; w_rand : nat }.
Definition IO (A : Type) : Type := world -> res A * world.
Definition io_ret {A} (a : A) : IO A := fun w => (Val a, w).
Definition io_res {A} (r : res A) : IO A := fun w => (r, w).
Definition io_bind {A B} (m : IO A) (k : A -> IO B) : IO B := fun w =>
  match m w with
  | (Val a, w') => k a w'
  | (Null, w') => (Null, w')
  | (UB, w') => (UB, w')
  end.
Definition io_rand {A} (m : M A) : IO A := fun w =>
  (fst (m (w_rand w)), {| w_fs := w_fs w; w_log := w_log w; w_reads := w_reads w; w_writes := w_writes w; w_rand := snd (m (w_rand w)) |}).
Declare Scope io_scope.
Delimit Scope io_scope with io.
Notation "x <-! e ;; k" := (io_bind e (fun x => k)) (at level 61, e at next level, right associativity) : io_scope.
Local Open Scope io_scope.

Definition set_name (f : fs) (p : bytes) (o : option nat) : fs :=
  {| fs_names := fun q => if beqb q p then o else fs_names f q; fs_data := fs_data f; fs_next := fs_next f |}.
Definition set_data (f : fs) (i : nat) (b : bytes) : fs :=
  {| fs_names := fs_names f; fs_data := fun j => if Nat.eqb j i then b else fs_data f j; fs_next := fs_next f |}.
Definition write_at (f : fs) (i off : nat) (b : bytes) : fs :=
  set_data f i (firstn off (fs_data f i) ++ b ++ skipn (off + length b) (fs_data f i))%list.
Definition become (f : fs) : IO unit := fun w =>
  (Val tt, {| w_fs := f; w_log := (0%nat, fun _ => f) :: w_log w; w_reads := w_reads w; w_writes := w_writes w; w_rand := w_rand w |}).
Definition now : IO fs := fun w => (Val (w_fs w), w).

Section Files.
Context (P : prims) (o : os).

(* the C library *)
Definition fopen_rb (p : bytes) : IO (option nat) := fun w =>
  (Val (if os_open_source o then None else fs_names (w_fs w) p), w).
Definition fopen_wb (p : bytes) : IO (option nat) :=
  if os_open_temp o then io_ret None
  else
    f <-! now ;;
    match fs_names f p with
    | Some i => _ <-! become (set_data f i []) ;; io_ret (Some i)
    | None =>
        let i := fs_next f in
        _ <-! become {| fs_names := fun q => if beqb q p then Some i else fs_names f q;
                        fs_data := fun j => if Nat.eqb j i then [] else fs_data f j; fs_next := S i |} ;;
        io_ret (Some i)
    end.
Definition fread (i off n : nat) : IO bytes := fun w =>
  let got := firstn n (skipn off (fs_data (w_fs w) i)) in
  (Val (match os_read o (w_reads w) with Some k => firstn k got | None => got end),
   {| w_fs := w_fs w; w_log := w_log w; w_reads := S (w_reads w); w_writes := w_writes w; w_rand := w_rand w |}).
Definition fwrite (i off : nat) (b : bytes) : IO nat := fun w =>
  let n := match os_write o (w_writes w) with Some k => Nat.min k (length b) | None => length b end in
  let f := w_fs w in
  (Val n, {| w_fs := write_at f i off (firstn n b); w_log := (n, fun k => write_at f i off (firstn k b)) :: w_log w;
             w_reads := w_reads w; w_writes := S (w_writes w); w_rand := w_rand w |}).
Definition fclose_out (i : nat) : IO unit :=
  match os_close o with
  | None => io_ret tt
  | Some c => f <-! now ;; become (set_data f i c)
  end.
(* two names of one file: rename does nothing *)
Definition frename (a b : bytes) : IO bool :=
  if os_rename o then io_ret false
  else
    f <-! now ;;
    match fs_names f a with
    | None => io_ret false
    | Some i =>
        if (match fs_names f b with Some j => Nat.eqb i j | None => false end) then io_ret true
        else _ <-! become (set_name (set_name f b (Some i)) a None) ;; io_ret true
    end.
Definition fremove (p : bytes) : IO unit :=
  if os_remove o then io_ret tt else f <-! now ;; become (set_name f p None).

(* an EVP context: after input x it has written [evp_stream x]; GCM encrypts and decrypts with the
   same key stream, and refuses more than 2^36 - 32 bytes *)
Definition evp_stream (c : cipher) (k iv x : bytes) : bytes :=
  match c with AES256_GCM => fst (p_gcm_enc P k iv [] x) | AES256_CTR => p_ctr P k iv x end.
Definition GCM_LIMIT : N := 68719476704.
Definition evp_fits (c : cipher) (x : bytes) : bool := match c with AES256_GCM => blen x <=? GCM_LIMIT | AES256_CTR => true end.

(* openssl_suite.c:1291-1320 and 1459-1487: read, update, write, until a read is short.
   [acc] is the input so far; the answer is the whole input.  Three reads more than the
   input has bytes are always enough. *)
Definition CHUNK : nat := 4096.
Fixpoint crypt_loop (chunk fuel : nat) (c : cipher) (k iv acc : bytes) (src roff dst woff : nat) : IO (option bytes) :=
  match fuel with
  | O => io_res UB
  | S fuel' =>
      x <-! fread src roff chunk ;;
      let total := (acc ++ x)%list in
      if negb (evp_fits c total) then io_ret None
      else
        let out := skipn (length acc) (evp_stream c k iv total) in
        n <-! fwrite dst woff out ;;
        if negb (Nat.eqb n (length out)) then io_ret None
        else if Nat.ltb (length x) chunk then io_ret (Some total)
        else crypt_loop chunk fuel' c k iv total src (roff + chunk) dst (woff + length out)
  end.
Definition loop_fuel (f : fs) (src : nat) : nat := 3 + length (fs_data f src).

(* openssl_suite.c:1224-1363; [src] is open at its start *)
Definition encrypt_file (src : nat) (key : cipher_key) (dst : nat) : IO bool :=
  let c := ck_cipher key in
  iv_f <-! io_rand (mtry (crypto_random P (iv_len c))) ;;
  let auth_tag := if size_ok (auth_tag_len c) then Some (os_junk o (auth_tag_len c)) else None in
  let cipher_result := cipher_result_create c iv_f None auth_tag in
  match cipher_result_serialize cipher_result, cipher_result with
  | Some serialized, Some r =>
      n <-! fwrite dst 0 serialized ;;
      if negb (Nat.eqb n (length serialized)) then io_ret false
      else if negb (blen (ck_data key) =? key_len c) then io_ret false
      else
        f <-! now ;;
        total <-! crypt_loop CHUNK (loop_fuel f src) c (ck_data key) (cr_iv r) [] src 0 dst (length serialized) ;;
        match total with
        | None => io_ret false
        | Some x =>
            let tag := match c with AES256_GCM => Some (snd (p_gcm_enc P (ck_data key) (cr_iv r) [] x)) | AES256_CTR => cr_tag r end in
            match cipher_result_serialize (Some {| cr_cipher := c; cr_iv := cr_iv r; cr_text := None; cr_tag := tag |}) with
            | None => io_ret true
            | Some again =>
                n <-! fwrite dst 0 again ;;
                io_ret (Nat.eqb n (length again))
            end
        end
  | _, _ => io_ret false
  end.

(* openssl_suite.c:1411-1490: from the parsed header [r] on; the input continues at [roff] *)
Definition decrypt_body (src : nat) (key : cipher_key) (dst : nat) (r : cipher_result) (roff : nat) : IO bool :=
  if negb (blen (ck_data key) =? key_len (cr_cipher r)) then io_ret false
  else if is_authenticated (cr_cipher r) && (match cr_tag r with Some t => negb (blen t =? auth_tag_len (cr_cipher r)) | None => true end)
  then io_ret false
  else
    f <-! now ;;
    total <-! crypt_loop CHUNK (loop_fuel f src) (cr_cipher r) (ck_data key) (cr_iv r) [] src roff dst 0 ;;
    match total with
    | None => io_ret false
    | Some x =>
        io_ret (match cr_cipher r with
                | AES256_GCM => match p_gcm_dec P (ck_data key) (cr_iv r) [] x (obytes (cr_tag r)) with Some _ => true | None => false end
                | AES256_CTR => true
                end)
    end.

(* openssl_suite.c:1390-1409: the rest of the header; a NULL cipher result is dereferenced *)
Definition decrypt_head (src : nat) (key : cipher_key) (dst : nat) (mode_byte : byte) (rest : nat) : IO bool :=
  h <-! fread src 1 rest ;;
  if negb (Nat.eqb (length h) rest) then io_ret false
  else
    match cipher_result_from_buffer (buffer_create (mode_byte :: h)) with
    | Val r => decrypt_body src key dst r (1 + rest)
    | _ => io_res UB
    end.

(* openssl_suite.c:1366-1506; both handles at their start *)
Definition decrypt_file (src : nat) (key : cipher_key) (dst : nat) (only_auth_ciphers : bool) : IO bool :=
  b <-! fread src 0 1 ;;
  match b with
  | [mode_byte] =>
      match cipher_find (b2n mode_byte) with
      | None => io_ret false
      | Some mode =>
          if only_auth_ciphers && negb (is_authenticated mode) then io_ret false
          else decrypt_head src key dst mode_byte (N.to_nat (iv_len mode + auth_tag_len mode))
      end
  | _ => io_ret false
  end.

(* openssl_suite.c:667-721: the digest context has absorbed [acc] *)
Fixpoint sha2_loop (chunk fuel : nat) (d : digest) (acc : bytes) (src roff : nat) : IO (option bytes) :=
  match fuel with
  | O => io_res UB
  | S fuel' =>
      fun w =>
        let failed := match os_read o (w_reads w) with Some _ => true | None => false end in
        (x <-! fread src roff chunk ;;
         if failed then io_ret None
         else if Nat.ltb (length x) chunk then io_ret (Some (p_sha P d (acc ++ x)%list))
         else sha2_loop chunk fuel' d (acc ++ x)%list src (roff + chunk)) w
  end.
Definition sha2_file (src : nat) (d : digest) : IO (option bytes) :=
  f <-! now ;; sha2_loop CHUNK (loop_fuel f src) d [] src 0.

(* openssl_file_suite.c:67-143 *)
Definition temp_path (destination : bytes) : bytes := (destination ++ [x2e; x74; x65; x6d; x70])%list.
Definition create_operation (source destination : bytes) : IO (option (nat * nat)) :=
  s <-! fopen_rb source ;;
  match s with
  | None => io_ret None
  | Some src =>
      d <-! fopen_wb (temp_path destination) ;;
      io_ret (match d with Some dst => Some (src, dst) | None => None end)
  end.
(* openssl_file_suite.c:160-182 *)
Definition move_temp (destination : bytes) (dst : nat) : IO bool :=
  _ <-! fclose_out dst ;; frename (temp_path destination) destination.
(* openssl_file_suite.c:184-193; [still_open] when the handles were not closed by the move *)
Definition free_operation (destination : bytes) (dst : nat) (still_open : bool) : IO unit :=
  _ <-! fremove (temp_path destination) ;;
  if still_open then fclose_out dst else io_ret tt.

(* openssl_file_suite.c:195-235 *)
Definition run_operation (source destination : bytes) (body : nat -> nat -> IO bool) : IO bool :=
  op <-! create_operation source destination ;;
  match op with
  | None => io_ret false
  | Some (src, dst) =>
      result <-! body src dst ;;
      if result then
        moved <-! move_temp destination dst ;;
        _ <-! free_operation destination dst false ;;
        io_ret moved
      else
        _ <-! free_operation destination dst true ;;
        io_ret false
  end.
Definition file_encrypt (key : option cipher_key) (source destination : option bytes) : IO bool :=
  match key, source, destination with
  | Some k, Some s, Some d => run_operation s d (fun src dst => encrypt_file src k dst)
  | _, _, _ => io_ret false
  end.
Definition file_decrypt (key : option cipher_key) (source destination : option bytes) (only_auth_ciphers : bool) : IO bool :=
  match key, source, destination with
  | Some k, Some s, Some d => run_operation s d (fun src dst => decrypt_file src k dst only_auth_ciphers)
  | _, _, _ => io_ret false
  end.
End Files.
