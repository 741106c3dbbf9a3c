(* Model of src/wickrcrypto/src/memory.c and of the heap the library's objects live in.
   Every allocation may fail: which ones do is a parameter of each run, so theorems range over
   every pattern of failures.
   A block is live or not; freeing a block that is not live (double free) and touching one
   (use after free) are undefined, as is writing through a NULL pointer.
   Simplifications: the bytes of a data block are in the heap; the fields of a structure are in
   the Gallina value that stands for the pointer to it (its block carries no bytes), which is
   adequate because the library's objects are trees: no structure has two owners. *)
From Verif.Base Require Import Bytes.
Local Open Scope N_scope.

Definition block : Type := nat.
Definition cell : Type := (block * bytes)%type.

(* what an allocation is for: the bytes of a buffer, one of the structures of the headers, *)
Inductive ctype :=
| T_data | T_buffer | T_array | T_ec_key | T_ecdsa_result | T_cipher_key | T_cipher_result | T_kdf_meta | T_kdf_result
| T_fingerprint | T_identity | T_identity_chain | T_ephemeral_keypair | T_node | T_packet_meta | T_payload | T_key_exchange
| T_key_exchange_set | T_packet | T_parse_result | T_decode_result | T_encoder_result | T_root_keys | T_storage_keys
| T_dev_info | T_stream_key | T_stream_iv | T_stream_ctx | T_transport_root_key | T_handshake_res | T_transport_packet
| T_handshake | T_transport_ctx | T_ecdh_ctx | T_ctx | T_ctx_gen_result | T_ctx_packet
(* and what other libraries allocate: an unpacked protobuf message, an OpenSSL key *)
| T_proto | T_openssl.

(* [freed] records what each block held when it was released, newest first *)
Record heap := { mem : block -> option bytes; next : block; freed : list cell }.

(* Which allocations fail: the n-th request, made for that type.  A computation is given this
   schedule and the heap; None is undefined behaviour. *)
Definition schedule : Type := nat -> ctype -> bool.
Definition H (A : Type) : Type := schedule -> heap -> option (A * heap).
Definition hret {A} (a : A) : H A := fun _ h => Some (a, h).
Definition hub {A} : H A := fun _ _ => None.
Definition hbind {A B} (m : H A) (k : A -> H B) : H B := fun fails h =>
  match m fails h with
  | Some (a, h') => k a fails h'
  | None => None
  end.
Declare Scope h_scope.
Delimit Scope h_scope with h.
Notation "x <-! e ;; k" := (hbind e (fun x => k)) (at level 61, e at next level, right associativity) : h_scope.
Notation "e ;;; k" := (hbind e (fun _ => k)) (at level 61, right associativity) : h_scope.
Local Open Scope h_scope.

Definition set_mem (h : heap) (b : block) (c : option bytes) : heap :=
  {| mem := fun x => if Nat.eqb x b then c else mem h x; next := next h; freed := freed h |}.

(* memory.c:11-25 wickr_alloc, wickr_alloc_zero: NULL, or a block no one uses.
   [contents] is what the block holds (nothing for a structure). *)
Definition alloc (ty : ctype) (contents : bytes) : H (option block) := fun fails h =>
  let b := next h in
  let h1 := {| mem := mem h; next := S b; freed := freed h |} in
  if fails b ty then Some (None, h1) else Some (Some b, set_mem h1 b (Some contents)).

(* reading or writing a field through a pointer *)
Definition touch (b : block) : H unit := fun _ h =>
  match mem h b with Some _ => Some (tt, h) | None => None end.
(* the bytes of a data block *)
Definition load (b : block) : H bytes := fun _ h =>
  match mem h b with Some c => Some (c, h) | None => None end.
(* memcpy over a whole data block: writing outside it is undefined *)
Definition store (b : block) (c : bytes) : H unit := fun _ h =>
  match mem h b with
  | Some old => if blen c =? blen old then Some (tt, set_mem h b (Some c)) else None
  | None => None
  end.
(* memory.c:27-33 wickr_free *)
Definition free (b : block) : H unit := fun _ h =>
  match mem h b with
  | Some c => Some (tt, {| mem := mem (set_mem h b None); next := next h; freed := (b, c) :: freed h |})
  | None => None
  end.
(* memory.c:35-55 wickr_zero over [len] bytes of a data block *)
Definition zero (b : block) (len : N) : H unit := fun _ h =>
  match mem h b with
  | Some c => if len <=? blen c
              then Some (tt, set_mem h b (Some (repeat x00 (N.to_nat len) ++ skipn (N.to_nat len) c)))
              else None
  | None => None
  end.

(* x = m; if (!x) { clean up; return NULL; } *)
Definition hcheck {A B} (m : H (option A)) (cleanup : H unit) (k : A -> H (option B)) : H (option B) :=
  o <-! m ;;
  match o with
  | Some x => k x
  | None => cleanup ;;; hret None
  end.
(* x = m; x->field = ...: the result is written to without a test *)
Definition hassume {A B} (m : H (option A)) (k : A -> H B) : H B :=
  o <-! m ;;
  match o with
  | Some x => k x
  | None => hub
  end.
(* x = copy(source); if (source && !x) { clean up; return NULL; } *)
Definition hcheck_if {A B C} (source : option C) (m : H (option A)) (cleanup : H unit) (k : option A -> H (option B)) : H (option B) :=
  o <-! m ;;
  match source, o with
  | Some _, None => cleanup ;;; hret None
  | _, _ => k o
  end.
Notation "x <-? e 'else' c ;; k" := (hcheck e c (fun x => k)) (at level 61, e at next level, c at next level, right associativity) : h_scope.
Notation "x <-# e ;; k" := (hassume e (fun x => k)) (at level 61, e at next level, right associativity) : h_scope.
Notation "x <-? e 'for' s 'else' c ;; k" := (hcheck_if s e c (fun x => k)) (at level 61, e at next level, s at next level, c at next level, right associativity) : h_scope.
