(* Model of stream_iv.c, stream_key.c, stream_key_priv.c and stream_ctx.c.
   Simplification: the context and key pointers are not NULL where the code does not test them. *)
From Verif.Base Require Import Bytes Monad.
From Verif.Model Require Import Buffer Cipher Ecdsa Prims Engine Proto.
Local Open Scope N_scope.
Local Open Scope res_scope.
Local Open Scope m_scope.

(* stream_key.h *)
Definition PACKET_PER_EVO_MIN : N := 1.
Definition PACKET_PER_EVO_MAX : N := 32768.
Record stream_key := { sk_cipher : cipher_key; sk_evo : bytes; sk_ppe : N; sk_user : option bytes }.
(* stream_iv.h *)
Record stream_iv := { si_cipher : cipher; si_seed : bytes; si_count : N }.
(* stream_ctx.h *)
Inductive direction := ENCODE | DECODE.
Definition direction_eqb (a b : direction) : bool := match a, b with ENCODE, ENCODE | DECODE, DECODE => true | _, _ => false end.
Record stream_ctx := { sc_key : stream_key; sc_last : N; sc_dir : direction; sc_iv : option stream_iv; sc_refs : N }.

(* stream_key.c:17-37 *)
Definition stream_key_create_user_data (k : option cipher_key) (evo : option bytes) (ppe : N) (user : option bytes) : option stream_key :=
  match k, evo with
  | Some c, Some e =>
      if (ppe <? PACKET_PER_EVO_MIN) || (PACKET_PER_EVO_MAX <? ppe) then None
      else Some {| sk_cipher := c; sk_evo := e; sk_ppe := ppe; sk_user := user |}
  | _, _ => None
  end.
(* stream_key.c:12-15 *)
Definition stream_key_create (k : option cipher_key) (evo : option bytes) (ppe : N) : option stream_key :=
  stream_key_create_user_data k evo ppe None.
(* stream_key.c:64-103 *)
Definition stream_key_copy (k : option stream_key) : option stream_key :=
  match k with
  | None => None
  | Some x =>
      match cipher_key_copy (Some (sk_cipher x)), buffer_copy (Some (sk_evo x)) with
      | Some c, Some e =>
          match sk_user x, buffer_copy (sk_user x) with
          | Some _, None => None
          | _, u => stream_key_create_user_data (Some c) (Some e) (sk_ppe x) u
          end
      | _, _ => None
      end
  end.

(* src/protobuf/stream.proto *)
Record pb_stream_key := { pst_cipher_key : option bytes; pst_evo : option bytes; pst_ppe : option N; pst_user : option bytes }.
Definition pb_stream_key_pack (m : pb_stream_key) : bytes :=
  (f_len_opt 1 (pst_cipher_key m) ++ f_len_opt 2 (pst_evo m) ++ f_var_opt 3 (pst_ppe m) ++ f_len_opt 4 (pst_user m))%list.
Definition pb_stream_key_unpack (b : bytes) : option pb_stream_key :=
  match scan b with
  | None => None
  | Some fs =>
      match get_bytes 1 fs None, get_bytes 2 fs None, get_u32 3 fs, get_bytes 4 fs None with
      | Some k, Some e, Some p, Some u => Some {| pst_cipher_key := k; pst_evo := e; pst_ppe := p; pst_user := u |}
      | _, _, _, _ => None
      end
  end.
(* stream_key_priv.c:15-58 *)
Definition stream_key_to_proto (k : stream_key) : option pb_stream_key :=
  match cipher_key_serialize (Some (sk_cipher k)) with
  | None => None
  | Some b => Some {| pst_cipher_key := Some b; pst_evo := Some (sk_evo k); pst_ppe := Some (sk_ppe k); pst_user := sk_user k |}
  end.
(* stream_key.c:105-130; the result of to_proto is not tested (line 113 tests the argument again) *)
Definition stream_key_serialize (k : option stream_key) : res bytes :=
  match k with
  | None => Null
  | Some x => match stream_key_to_proto x with
              | None => UB
              | Some m => lift (pack_buffer (pb_stream_key_pack m))
              end
  end.
(* stream_key_priv.c:60-107 *)
Definition stream_key_create_from_proto (m : pb_stream_key) : res stream_key :=
  match pst_cipher_key m, pst_evo m, pst_ppe m with
  | Some kb, Some e, Some ppe =>
      b <~ buffer_create kb ;;
      k <- cipher_key_from_buffer (Some b) ;;
      evo <~ buffer_create e ;;
      user <- (match pst_user m with None => Val None | Some u => x <~ buffer_create u ;; Val (Some x) end) ;;
      lift (stream_key_create_user_data (Some k) (Some evo) ppe user)
  | _, _, _ => Null
  end.
(* stream_key.c:132-148 *)
Definition stream_key_create_from_buffer (buffer : option bytes) : res stream_key :=
  match buffer with
  | None => Null
  | Some b => m <~ pb_stream_key_unpack b ;; stream_key_create_from_proto m
  end.

(* stream_iv.c:36-61 *)
Definition stream_iv_copy (iv : option stream_iv) : option stream_iv :=
  match iv with
  | None => None
  | Some x => match buffer_copy (Some (si_seed x)) with
              | None => None
              | Some s => Some {| si_cipher := si_cipher x; si_seed := s; si_count := si_count x |}
              end
  end.
(* stream_ctx.c:39-74 *)
Definition stream_ctx_copy (ctx : option stream_ctx) : option stream_ctx :=
  match ctx with
  | None => None
  | Some x =>
      match stream_key_copy (Some (sc_key x)) with
      | None => None
      | Some k =>
          let iv := stream_iv_copy (sc_iv x) in
          if (match iv with None => direction_eqb (sc_dir x) ENCODE | Some _ => false end) then None
          else Some {| sc_key := k; sc_last := sc_last x; sc_dir := sc_dir x; sc_iv := iv; sc_refs := 1 |}
      end
  end.
(* stream_ctx.c:85-94; SIZE_MAX is 2^64 - 1, the count is a size_t *)
Definition stream_ctx_ref_up (ctx : stream_ctx) : bool * stream_ctx :=
  if sc_refs ctx =? two64 - 1 then (false, ctx)
  else (true, {| sc_key := sc_key ctx; sc_last := sc_last ctx; sc_dir := sc_dir ctx; sc_iv := sc_iv ctx; sc_refs := (sc_refs ctx + 1) mod two64 |}).
(* stream_ctx.c:76-83, 228-242: None when the context was freed *)
Definition stream_ctx_destroy (ctx : stream_ctx) : option stream_ctx :=
  let refs := if sc_refs ctx =? 0 then 0 else sc_refs ctx - 1 in
  if refs =? 0 then None
  else Some {| sc_key := sc_key ctx; sc_last := sc_last ctx; sc_dir := sc_dir ctx; sc_iv := sc_iv ctx; sc_refs := refs |}.

Section Stream.
Context (P : prims).

(* stream_key.c:39-62 *)
Definition stream_key_create_rand (c : cipher) (ppe : N) : M stream_key :=
  k <-- cipher_key_random P c ;;
  e <-- crypto_random P (key_len c) ;;
  mlift (stream_key_create (Some k) (Some e) ppe).

(* stream_iv.c:12-34 *)
Definition stream_iv_create (c : cipher) : M stream_iv :=
  seed <-- crypto_random P (digest_size SHA512) ;;
  mret {| si_cipher := c; si_seed := seed; si_count := 0 |}.
(* stream_iv.c:74-91: the IV and the generator after the call *)
Definition stream_iv_generate (iv : stream_iv) : option bytes * stream_iv :=
  match hmac_create P (Some (le_enc 8 (si_count iv))) (Some (si_seed iv)) SHA512 with
  | None => (None, iv)
  | Some h => (Some (firstn (N.to_nat (iv_len (si_cipher iv))) h),
               {| si_cipher := si_cipher iv; si_seed := si_seed iv; si_count := wadd64 (si_count iv) 1 |})
  end.

(* stream_ctx.c:7-37 *)
Definition stream_ctx_create (k : option stream_key) (d : direction) : M stream_ctx :=
  match k with
  | None => mres Null
  | Some x =>
      if negb (is_authenticated (ck_cipher (sk_cipher x))) then mres Null
      else
        iv <-- (match d with ENCODE => f <-- stream_iv_create (ck_cipher (sk_cipher x)) ;; mret (Some f) | DECODE => mret None end) ;;
        mret {| sc_key := x; sc_last := 0; sc_dir := d; sc_iv := iv; sc_refs := 1 |}
  end.

(* stream_ctx.c:96-132; the new key has no user data *)
Definition stream_key_create_with_evo_buffer (old : stream_key) (evo : bytes) : option stream_key :=
  match buffer_copy_section evo 0 (digest_size SHA512 / 2), buffer_copy_section evo (digest_size SHA512 / 2) (digest_size SHA512 / 2) with
  | Some c, Some e =>
      match cipher_key_create (ck_cipher (sk_cipher old)) (Some c) with
      | None => None
      | Some k => stream_key_create (Some k) (Some e) (sk_ppe old)
      end
  | _, _ => None
  end.
(* stream_ctx.c:159-177, one turn of the loop *)
Definition evolve_turn (k : stream_key) : option stream_key :=
  match hmac_create P (Some (ck_data (sk_cipher k))) (Some (sk_evo k)) SHA512 with
  | None => None
  | Some evo => stream_key_create_with_evo_buffer k evo
  end.
Definition evolve_loop (n : N) (k : stream_key) : option stream_key :=
  N.iter n (fun o => match o with Some x => evolve_turn x | None => None end) (Some k).
(* stream_ctx.c:134-184: the key to go on with, None for failure *)
Definition evolve_key_material (ctx : stream_ctx) (seq_num : N) : option stream_key :=
  let curr_evo := sc_last ctx / sk_ppe (sc_key ctx) in
  let seq_evo := seq_num / sk_ppe (sc_key ctx) in
  if seq_evo <? curr_evo then None
  else if seq_evo =? curr_evo then Some (sc_key ctx)
  else match stream_key_copy (Some (sc_key ctx)) with
       | None => None
       | Some k => evolve_loop (seq_evo - curr_evo) k
       end.

(* stream_ctx.c:186-209.  The engine draws no random IV since one is given, so the draw counter
   plays no part.  An encoding context always has an IV generator. *)
Definition stream_ctx_encode (ctx : stream_ctx) (data aad : option bytes) (seq_num : N) : res cipher_result * stream_ctx :=
  match data with
  | None => (Null, ctx)
  | Some d =>
      if (seq_num <=? sc_last ctx) || negb (direction_eqb (sc_dir ctx) ENCODE) then (Null, ctx)
      else match sc_iv ctx with
           | None => (Null, ctx)
           | Some gen =>
               let '(iv, gen') := stream_iv_generate gen in
               let set k n := {| sc_key := k; sc_last := n; sc_dir := sc_dir ctx; sc_iv := Some gen'; sc_refs := sc_refs ctx |} in
               match iv with
               | None => (Null, set (sc_key ctx) (sc_last ctx))
               | Some v =>
                   match evolve_key_material ctx seq_num with
                   | None => (Null, set (sc_key ctx) (sc_last ctx))
                   | Some k => (fst (aes256_encrypt P (Some d) aad (Some (sk_cipher k)) (Some v) 0%nat), set k seq_num)
                   end
               end
           end
  end.
(* stream_ctx.c:211-226 *)
Definition stream_ctx_decode (ctx : stream_ctx) (data : option cipher_result) (aad : option bytes) (seq_num : N) : res bytes * stream_ctx :=
  match data with
  | None => (Null, ctx)
  | Some d =>
      if (seq_num <=? sc_last ctx) || negb (direction_eqb (sc_dir ctx) DECODE) then (Null, ctx)
      else match evolve_key_material ctx seq_num with
           | None => (Null, ctx)
           | Some k => (aes256_decrypt P (Some d) aad (Some (sk_cipher k)) true,
                        {| sc_key := k; sc_last := seq_num; sc_dir := sc_dir ctx; sc_iv := sc_iv ctx; sc_refs := sc_refs ctx |})
           end
  end.

End Stream.
