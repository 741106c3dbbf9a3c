(* What using a stream owes its caller in terms of memory, whichever allocations fail. *)
From Verif.Base Require Import Bytes Monad.
From Verif.Model Require Import Buffer Cipher Ecdsa Prims Engine Stream Heap HeapObjects HeapMessages HeapEngine HeapStream.
From Verif.Spec Require Import HeapSpec HeapObjectSpec CopySpec HeapEngineSpec HeapContextSpec.
Local Open Scope N_scope.
Local Open Scope h_scope.

(* a context as it is made: the nonce generator is for the cipher of the key *)
Definition usable_stream (c : stream_ctx) : Prop :=
  made_stream_ctx c /\ forall g, sc_iv c = Some g -> si_cipher g = ck_cipher (sk_cipher (sc_key c)).
(* the context with another nonce generator *)
Definition with_nonces (c : stream_ctx) (g : option stream_iv) : stream_ctx :=
  {| sc_key := sc_key c; sc_last := sc_last c; sc_dir := sc_dir c; sc_iv := g; sc_refs := sc_refs c |}.
(* the nonce that is next, and the context once it is used up *)
Definition next_nonce (P : prims) (c : stream_ctx) : list bytes :=
  match sc_iv c with Some g => opt_list (fst (stream_iv_generate P g)) | None => [] end.
Definition nonce_spent (P : prims) (c : stream_ctx) : stream_ctx :=
  with_nonces c (option_map (fun g => snd (stream_iv_generate P g)) (sc_iv c)).
(* the structure of the context and its nonce generator stay where they are *)
Definition same_place (c c' : hsc) : Prop :=
  hsc_addr c' = hsc_addr c /\ hsc_dir c' = hsc_dir c /\ option_map hsi_addr (hsc_iv c') = option_map hsi_addr (hsc_iv c) /\
  option_map hsi_seed (hsc_iv c') = option_map hsi_seed (hsc_iv c).
(* The answer [a] and the new context are those of the pure operation; or an allocation failed, there is no
   answer, and the context is in one of the given [stages] of the operation. *)
Definition advances {T V} (value : T -> V) (ctx : hsc) (pure : res V * stream_ctx) (stages : list stream_ctx) (fails : schedule) (a : option T * hsc) : Prop :=
  same_place ctx (snd a) /\
  match fst a with
  | Some t => pure = (Val (value t), sc_value (snd a))
  | None => pure = (Null, sc_value (snd a)) \/ some_failure fails /\ In (sc_value (snd a)) stages
  end.
Definition advances_ok {T V} (value : T -> V) (ctx : hsc) (pure : res V * stream_ctx) (a : option T * hsc) : Prop :=
  same_place ctx (snd a) /\ match fst a with Some t => pure = (Val (value t), sc_value (snd a)) | None => pure = (Null, sc_value (snd a)) end.
(* the blocks of the answer and of the context *)
Definition with_ctx {T} (cells : T -> list cell) (a : option T * hsc) : list cell := cells_opt cells (fst a) ++ sc_cells (snd a).
(* the user data of the key, which the first evolution drops *)
Definition user_data (c : stream_ctx) : list bytes := opt_list (sk_user (sc_key c)).
(* making a context for encoding draws a seed, which a failure leaves readable, and a failure can leave
   the nonce generator behind *)
Definition stream_seed (P : prims) (d : direction) (s : nat) : list bytes := match d with ENCODE => drawn P s (digest_size SHA512) | DECODE => [] end.
Definition ctx_untested (d : direction) : list ctype := match d with ENCODE => buffer_kinds | DECODE => [] end.
Definition ctx_leak (d : direction) : schedule -> Prop := match d with ENCODE => some_failure | DECODE => never_leaks_op end.

(* --- sessions: any number of calls on one context, whose answers are kept --- *)
Definition encode_call : Type := option hbuf * option hbuf * N.
Definition decode_call : Type := option hcr * option hbuf * N * bytes.
Fixpoint encode_session (P : prims) (ctx : hsc) (calls : list encode_call) : H (list (option hcr) * hsc) :=
  match calls with
  | [] => hret ([], ctx)
  | (data, aad, seq_num) :: rest =>
      a <-! h_stream_ctx_encode P ctx data aad seq_num ;;
      l <-! encode_session P (snd a) rest ;;
      hret (fst a :: fst l, snd l)
  end.
Fixpoint decode_session (P : prims) (ctx : hsc) (calls : list decode_call) : H (list (option hbuf) * hsc) :=
  match calls with
  | [] => hret ([], ctx)
  | (data, aad, seq_num, draft) :: rest =>
      a <-! h_stream_ctx_decode P ctx data aad seq_num draft ;;
      l <-! decode_session P (snd a) rest ;;
      hret (fst a :: fst l, snd l)
  end.
(* the same calls one after the other, without memory *)
Fixpoint encodes (P : prims) (c : stream_ctx) (calls : list encode_call) : list (res cipher_result) * stream_ctx :=
  match calls with
  | [] => ([], c)
  | (data, aad, seq_num) :: rest =>
      let a := stream_ctx_encode P c (option_map b_bytes data) (option_map b_bytes aad) seq_num in
      let l := encodes P (snd a) rest in (fst a :: fst l, snd l)
  end.
Fixpoint decodes (P : prims) (c : stream_ctx) (calls : list decode_call) : list (res bytes) * stream_ctx :=
  match calls with
  | [] => ([], c)
  | (data, aad, seq_num, _) :: rest =>
      let a := stream_ctx_decode P c (option_map cr_value data) (option_map b_bytes aad) seq_num in
      let l := decodes P (snd a) rest in (fst a :: fst l, snd l)
  end.
Definition answered {T V} (value : T -> V) (a : option T) : res V := match a with Some t => Val (value t) | None => Null end.
Definition with_ctxs {T} (cells : T -> list cell) (a : list (option T) * hsc) : list cell := flat_map (cells_opt cells) (fst a) ++ sc_cells (snd a).
(* the nonce at a position of the sequence a generator gives *)
Fixpoint nonce_at (P : prims) (g : stream_iv) (i : nat) : option bytes :=
  match i with O => fst (stream_iv_generate P g) | S j => nonce_at P (snd (stream_iv_generate P g)) j end.
Definition first_nonces (P : prims) (c : stream_ctx) (n : nat) : list bytes :=
  match sc_iv c with Some g => flat_map (fun i => opt_list (nonce_at P g i)) (seq 0 n) | None => [] end.
(* every packet has a nonce of the sequence from position [i] on, each later than those before it; a call
   without a packet uses up at most one *)
Fixpoint nonces_from (nonce : nat -> option bytes) (i : nat) (l : list (option cipher_result)) : Prop :=
  match l with
  | [] => True
  | None :: rest => nonces_from nonce i rest \/ nonces_from nonce (S i) rest
  | Some r :: rest => nonce i = Some (cr_iv r) /\ nonces_from nonce (S i) rest
  end.
(* the nonces of the packets that came out *)
Definition used_nonces (l : list (option cipher_result)) : list bytes := flat_map (fun r => opt_list (option_map cr_iv r)) l.
(* the sequence numbers that were answered, above [n] and each above those before it *)
Fixpoint rising (n : N) (l : list (N * bool)) : Prop :=
  match l with
  | [] => True
  | (_, false) :: rest => rising n rest
  | (m, true) :: rest => n < m /\ rising m rest
  end.
Definition numbered {T} (numbers : list N) (answers : list (option T)) : list (N * bool) :=
  combine numbers (map (fun a => match a with Some _ => true | None => false end) answers).
(* the arguments of the calls *)
Definition encode_args (calls : list encode_call) : list (list cell) := flat_map (fun '(data, aad, _) => [cells_opt buf_cells data; cells_opt buf_cells aad]) calls.
Definition decode_args (calls : list decode_call) : list (list cell) := flat_map (fun '(data, aad, _, _) => [cells_opt cr_cells data; cells_opt buf_cells aad]) calls.
Definition encode_call_ok : encode_call -> Prop := fun '(_, aad, _) => if_set real (option_map b_bytes aad).
Definition decode_call_ok : decode_call -> Prop := fun '(data, _, _, _) => if_set made_cipher_result (option_map cr_value data).
Definition encode_numbers (calls : list encode_call) : list N := map snd calls.
Definition decode_numbers (calls : list decode_call) : list N := map (fun '(_, _, seq_num, _) => seq_num) calls.
(* what a session owes its caller *)
Definition encode_session_right (P : prims) (ctx : hsc) (calls : list encode_call) (fails : schedule) (a : list (option hcr) * hsc) : Prop :=
  same_place ctx (snd a) /\
  ((map (answered cr_value) (fst a), sc_value (snd a)) = encodes P (sc_value ctx) calls \/ some_failure fails) /\
  (forall g, sc_iv (sc_value ctx) = Some g -> nonces_from (nonce_at P g) 0 (map (option_map cr_value) (fst a))) /\
  rising (hsc_last ctx) (numbered (encode_numbers calls) (fst a)).
Definition decode_session_right (P : prims) (ctx : hsc) (calls : list decode_call) (fails : schedule) (a : list (option hbuf) * hsc) : Prop :=
  same_place ctx (snd a) /\
  ((map (answered b_bytes) (fst a), sc_value (snd a)) = decodes P (sc_value ctx) calls \/ some_failure fails) /\
  rising (hsc_last ctx) (numbered (decode_numbers calls) (fst a)).
Definition encode_session_ok (P : prims) (ctx : hsc) (calls : list encode_call) (a : list (option hcr) * hsc) : Prop :=
  same_place ctx (snd a) /\ (map (answered cr_value) (fst a), sc_value (snd a)) = encodes P (sc_value ctx) calls.
Definition decode_session_ok (P : prims) (ctx : hsc) (calls : list decode_call) (a : list (option hbuf) * hsc) : Prop :=
  same_place ctx (snd a) /\ (map (answered b_bytes) (fst a), sc_value (snd a)) = decodes P (sc_value ctx) calls.
