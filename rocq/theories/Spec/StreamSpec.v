(* Vocabulary for encrypted streams. *)
From Coq Require Import Sorted.
From Verif.Base Require Import Bytes Monad.
From Verif.Model Require Import Cipher Ecdsa Prims Engine Stream.
From Verif.Spec Require Import BufferSpec CodecSpec.
Local Open Scope N_scope.

(* a stream key as the constructors make them *)
Definition good_stream_key (k : stream_key) : Prop :=
  ck_cipher (sk_cipher k) = AES256_GCM /\ good_key (sk_cipher k) /\ within_limit (blen (sk_evo k)) /\
  1 <= sk_ppe k <= 32768 /\ (forall u, sk_user k = Some u -> within_limit (blen u)).
(* one evolution: the halves of HMAC-SHA-512 of the cipher key under the evolution key *)
Definition evolved (P : prims) (ke : bytes * bytes) : bytes * bytes :=
  let h := p_hmac P SHA512 (snd ke) (fst ke) in (firstn 32 h, skipn 32 h).
(* cipher key and evolution key after n evolutions *)
Definition keys_after (P : prims) (k : stream_key) (n : N) : bytes * bytes :=
  N.iter n (evolved P) (ck_data (sk_cipher k), sk_evo k).
Definition gcm_key (b : bytes) : cipher_key := {| ck_cipher := AES256_GCM; ck_data := b |}.
(* the cipher key of packet number n *)
Definition packet_key (P : prims) (k : stream_key) (n : N) : cipher_key := gcm_key (fst (keys_after P k (n / sk_ppe k))).
(* the n-th IV of a generator *)
Definition iv_of (P : prims) (seed : bytes) (n : N) : bytes := firstn 12 (p_hmac P SHA512 seed (le_enc 8 n)).

(* histories of one stream context *)
Inductive stream_op :=
| Encode (data aad : option bytes) (seq : N)
| Decode (packet : option cipher_result) (aad : option bytes) (seq : N)
| GoOnWithCopy.
Inductive stream_answer :=
| Encoded (seq : N) (r : res cipher_result)
| Decoded (seq : N) (r : res bytes)
| Copied.
Definition stream_step (P : prims) (o : stream_op) (c : stream_ctx) : stream_answer * stream_ctx :=
  match o with
  | Encode d a n => let '(r, c') := stream_ctx_encode P c d a n in (Encoded n r, c')
  | Decode d a n => let '(r, c') := stream_ctx_decode P c d a n in (Decoded n r, c')
  | GoOnWithCopy => (Copied, match stream_ctx_copy (Some c) with Some c' => c' | None => c end)
  end.
Fixpoint stream_run (P : prims) (c : stream_ctx) (ops : list stream_op) : list stream_answer * stream_ctx :=
  match ops with
  | [] => ([], c)
  | o :: r => let '(a, c') := stream_step P o c in
              let '(l, c'') := stream_run P c' r in (a :: l, c'')
  end.
(* the sequence numbers of the calls that returned something *)
Definition accepted (a : stream_answer) : list N :=
  match a with Encoded n (Val _) => [n] | Decoded n (Val _) => [n] | _ => [] end.
Definition increasing (l : list N) : Prop := StronglySorted N.lt l.
(* the IVs of the packets encoded *)
Definition ivs (a : stream_answer) : list bytes := match a with Encoded _ (Val r) => [cr_iv r] | _ => [] end.

(* a packet in transit *)
Record spacket := { sp_seq : N; sp_aad : option bytes; sp_data : bytes; sp_cipher : cipher_result }.
(* what a sender makes of a list of messages (sequence number, associated data, data) *)
Fixpoint sent (P : prims) (c : stream_ctx) (l : list (N * option bytes * bytes)) : list spacket :=
  match l with
  | [] => []
  | (n, a, d) :: r => let '(x, c') := stream_ctx_encode P c (Some d) a n in
                      match x with
                      | Val y => {| sp_seq := n; sp_aad := a; sp_data := d; sp_cipher := y |} :: sent P c' r
                      | _ => sent P c' r
                      end
  end.
(* the answers of a receiver to some packets *)
Fixpoint received (P : prims) (c : stream_ctx) (l : list spacket) : list (res bytes) :=
  match l with
  | [] => []
  | p :: r => let '(x, c') := stream_ctx_decode P c (Some (sp_cipher p)) (sp_aad p) (sp_seq p) in x :: received P c' r
  end.
(* some of the elements, in their order *)
Inductive subsequence {A} : list A -> list A -> Prop :=
| sub_nil l : subsequence [] l
| sub_keep x l m : subsequence l m -> subsequence (x :: l) (x :: m)
| sub_drop x l m : subsequence l m -> subsequence l (x :: m).
(* reference counting: true takes a reference, false releases one; None when the context is gone *)
Fixpoint ref_run (c : stream_ctx) (ops : list bool) : option stream_ctx :=
  match ops with
  | [] => Some c
  | true :: r => ref_run (snd (stream_ctx_ref_up c)) r
  | false :: r => match stream_ctx_destroy c with Some c' => ref_run c' r | None => None end
  end.
Definition takes (ops : list bool) : N := N.of_nat (length (filter (fun b => b) ops)).
Definition releases (ops : list bool) : N := N.of_nat (length (filter negb ops)).
(* how many of the references asked for were granted *)
Fixpoint granted (c : stream_ctx) (ops : list bool) : N :=
  match ops with
  | [] => 0
  | true :: r => (if fst (stream_ctx_ref_up c) then 1 else 0) + granted (snd (stream_ctx_ref_up c)) r
  | false :: r => match stream_ctx_destroy c with Some c' => granted c' r | None => 0 end
  end.
(* at some point more references were released than held: the creator's and those taken *)
Definition all_released (ops : list bool) : Prop := exists p q, ops = (p ++ q)%list /\ releases p = 1 + takes p.
