(* Model of the base64 functions of src/wickrcrypto/src/util.c *)
From Coq Require Import Strings.String.
From Verif.Base Require Import Bytes.
From Verif.Model Require Import Buffer CString.
Local Open Scope N_scope.
Local Open Scope res_scope.

(* util.c:16 _base64EncodingTable *)
Definition b64_enc_table : bytes :=
  list_byte_of_string "ABCDEFGHIJKLMNOPQRSTUVWXYZabcdefghijklmnopqrstuvwxyz0123456789+/".
(* an index into the 64-entry table; the callers' indices are all below 64 *)
Definition b64_char (v : N) : byte := nth (N.to_nat v) b64_enc_table NUL.

(* util.c:17-34 _base64DecodingTable, row by row *)
Definition b64_dec_table : list Z := (
  [-2; -2; -2; -2; -2; -2; -2; -2; -2; -1; -1; -2; -1; -1; -2; -2;
   -2; -2; -2; -2; -2; -2; -2; -2; -2; -2; -2; -2; -2; -2; -2; -2;
   -1; -2; -2; -2; -2; -2; -2; -2; -2; -2; -2; 62; -2; -2; -2; 63;
   52; 53; 54; 55; 56; 57; 58; 59; 60; 61; -2; -2; -2; -2; -2; -2;
   -2;  0;  1;  2;  3;  4;  5;  6;  7;  8;  9; 10; 11; 12; 13; 14;
   15; 16; 17; 18; 19; 20; 21; 22; 23; 24; 25; -2; -2; -2; -2; -2;
   -2; 26; 27; 28; 29; 30; 31; 32; 33; 34; 35; 36; 37; 38; 39; 40;
   41; 42; 43; 44; 45; 46; 47; 48; 49; 50; 51; -2; -2; -2; -2; -2])%Z
  ++ List.repeat (-2)%Z 128.

Definition EQ : byte := n2b 61. (* '=' *)

(* util.c:58-82: the characters written through objPointer *)
Fixpoint b64_encode_chars (d : bytes) : bytes :=
  match d with
  | [] => []
  | a :: [] =>                                                (* 72, 78-80 *)
      [ b64_char (N.shiftr (b2n a) 2); b64_char (N.shiftl (N.land (b2n a) 3) 4); EQ; EQ ]
  | a :: b :: [] =>                                           (* 72, 74-76 *)
      [ b64_char (N.shiftr (b2n a) 2);
        b64_char (N.shiftl (N.land (b2n a) 3) 4 + N.shiftr (b2n b) 4);
        b64_char (N.shiftl (N.land (b2n b) 15) 2); EQ ]
  | a :: b :: c :: d' =>                                      (* 59-68 *)
      b64_char (N.shiftr (b2n a) 2)
      :: b64_char (N.shiftl (N.land (b2n a) 3) 4 + N.shiftr (b2n b) 4)
      :: b64_char (N.shiftl (N.land (b2n b) 15) 2 + N.shiftr (b2n c) 6)
      :: b64_char (N.land (b2n c) 63)
      :: b64_encode_chars d'
  end.

(* util.c:36-88 getBase64FromData.  The writes go to the start of the new allocation;
   writing more characters than were allocated is undefined. *)
Definition base64_encode (junk : nat -> byte) (objData : option bytes) : res cbuf :=
  match objData with
  | None => Null
  | Some d =>
      if blen d =? 0 then Null
      else
        alloc <~ buffer_create_empty junk (wadd64 (((wadd64 (blen d) 2) / 3 * 4) mod two64) 1) ;;
        let written := (b64_encode_chars d ++ [NUL])%list in
        mem <- memwrite alloc 0 written (blen written) ;;
        len <- strlen mem ;;
        Val {| cb_mem := mem; cb_len := len |}
  end.

(* util.c:123: table lookup with an int made from a plain char *)
Definition b64_lookup (signed_char : bool) (c : byte) : res Z :=
  if signed_char && (128 <=? b2n c) then UB   (* negative index *)
  else match nth_error b64_dec_table (N.to_nat (b2n c)) with Some v => Val v | None => UB end.

(* util.c:133-151 *)
Definition b64_store (i j : nat) (v : N) (out : bytes) : res (nat * bytes) :=
  match Nat.modulo i 4 with
  | 0%nat => out' <- put out j (n2b (N.shiftl v 2)) ;; Val (j, out')
  | 1%nat => o1 <- put_or out j (n2b (N.shiftr v 4)) ;;
             o2 <- put o1 (S j) (n2b (N.shiftl (N.land v 15) 4)) ;; Val (S j, o2)
  | 2%nat => o1 <- put_or out j (n2b (N.shiftr v 2)) ;;
             o2 <- put o1 (S j) (n2b (N.shiftl (N.land v 3) 6)) ;; Val (S j, o2)
  | _     => o1 <- put_or out j (n2b v) ;; Val (S j, o1)
  end.

(* util.c:113-153: p is the memory from objPointer on, rem is intLength, the result is
   (last character read, i, j, objResult->bytes) *)
Fixpoint b64_loop (sc : bool) (p : bytes) (rem : N) (i j : nat) (out : bytes)
  : res (byte * nat * nat * bytes) :=
  match p with
  | [] => UB
  | c :: p' =>
      if Byte.eqb c NUL then Val (c, i, j, out)
      else if rem =? 0 then Val (c, i, j, out)
      else if Byte.eqb c EQ then
        match p' with
        | [] => UB
        | c' :: _ =>
            if negb (Byte.eqb c' EQ) && Nat.eqb (Nat.modulo i 4) 1 then Null
            else b64_loop sc p' (rem - 1) i j out
        end
      else
        v <- b64_lookup sc c ;;
        if Z.eqb v (-1) then b64_loop sc p' (rem - 1) i j out
        else if Z.eqb v (-2) then Null
        else
          jo <- b64_store i j (Z.to_N v) out ;;
          b64_loop sc p' (rem - 1) (S i) (fst jo) (snd jo)
  end.

(* util.c:155-170 *)
Definition b64_mop (last : byte) (i j : nat) (out : bytes) : res bytes :=
  if Byte.eqb last EQ then
    match Nat.modulo i 4 with
    | 1%nat => Null
    | 2%nat => put out (S j) NUL
    | 3%nat => put out j NUL
    | _ => Val out
    end
  else Val out.

(* util.c:90-174 getDataFromBase64; sc = the platform's char is signed *)
Definition base64_decode (sc : bool) (strBase64 : option cbuf) : res cbuf :=
  match strBase64 with
  | None => Null
  | Some s =>
      n <- strlen (cb_mem s) ;;
      let intLength := if cb_len s <? n then cb_len s else n in
      out <~ buffer_create_empty_zero intLength ;;
      r <- b64_loop sc (cb_mem s) intLength 0 0 out ;;
      match r with
      | (last, i, j, out') =>
          out'' <- b64_mop last i j out' ;;
          Val {| cb_mem := out''; cb_len := N.of_nat j |}
      end
  end.
