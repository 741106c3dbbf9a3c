(* Texts on the heap of Model/Heap.v: base32 (b32.c), base64 and hexadecimal (util.c) and the
   texts of fingerprints (fingerprint.c).  The functions follow Model/Base32.v, Model/Base64.v,
   Model/Hex.v and Model/Fingerprint.v and add what is allocated, released and left behind. *)
From Verif.Base Require Import Bytes.
From Verif.Model Require Import Buffer CString Hex Base64 Base32 Fingerprint Heap HeapObjects HeapWrite HeapEngine.
Local Open Scope N_scope.
Local Open Scope h_scope.

(* a buffer whose allocation may be longer than its length says *)
Record htext := { t_buf : hbuf; t_len : N }.
Definition text_cells (t : htext) : list cell := buf_cells (t_buf t).
Definition text_value (t : htext) : cbuf := {| cb_mem := b_bytes (t_buf t); cb_len := t_len t |}.

(* b32.c:223-247; the two tests never fail, see Proofs/Base32Facts.v *)
Definition h_base32_encode (buffer : option hbuf) : H (option hbuf) :=
  match buffer with
  | None => hret None
  | Some b =>
      d <-! h_bytes b ;;
      return_buffer <-? h_buffer_create_empty (b32_encode_length (blen d)) else hret tt ;;
      match b32_code b32_encode_block 5 b32_encode_length d (b_bytes return_buffer) with
      | UB => hub
      | Null => h_buffer_destroy (Some return_buffer) ;;; hret None
      | Val enc =>
          match b32_encode_map enc with
          | None => h_buffer_destroy (Some return_buffer) ;;; hret None
          | Some t => r <-! h_fill return_buffer t ;; hret (Some r)
          end
      end
  end.
(* b32.c:71-90: what the buffer holds after the characters were replaced in place, up to the
   first that is not in the alphabet *)
Fixpoint unmapped_part (l : bytes) : bytes :=
  match l with
  | [] => []
  | c :: l' => if b32_rmap c =? 255 then l else n2b (b32_rmap c) :: unmapped_part l'
  end.
(* b32.c:249-292 *)
Definition h_base32_decode (buffer : option hbuf) : H (option htext) :=
  match buffer with
  | None => hret None
  | Some b =>
      copy <-? h_buffer_copy (Some b) else hret tt ;;
      unmapped <-! h_fill copy (unmapped_part (b_bytes copy)) ;;
      match b32_unmap (b_bytes copy) with
      | None => h_buffer_destroy (Some unmapped) ;;; hret None
      | Some u =>
          let decode_length := b32_decode_length (blen u) in
          if decode_length =? 0 then h_buffer_destroy (Some unmapped) ;;; hret None
          else
            decoded <-? h_buffer_create_empty (wadd64 decode_length 1) else h_buffer_destroy (Some unmapped) ;;
            match b32_code b32_decode_block 8 b32_decode_length u (b_bytes decoded) with
            | UB => hub
            | Null => h_buffer_destroy (Some decoded) ;;; h_buffer_destroy (Some unmapped) ;;; hret None
            | Val m =>
                r <-! h_fill decoded m ;;
                h_buffer_destroy (Some unmapped) ;;;
                hret (Some {| t_buf := r; t_len := decode_length |})
            end
      end
  end.

(* util.c:36-88 *)
Definition h_base64_encode (objData : option hbuf) : H (option htext) :=
  match objData with
  | None => hret None
  | Some b =>
      d <-! h_bytes b ;;
      if blen d =? 0 then hret None
      else
        strResult <-? h_buffer_create_empty (wadd64 (((wadd64 (blen d) 2) / 3 * 4) mod two64) 1) else hret tt ;;
        let written := (b64_encode_chars d ++ [NUL])%list in
        match memwrite (b_bytes strResult) 0 written (blen written) with
        | Val m =>
            r <-! h_fill strResult m ;;
            match strlen m with Val len => hret (Some {| t_buf := r; t_len := len |}) | _ => hub end
        | _ => hub
        end
  end.
(* util.c:113-153: what the output holds when the loop is left, for any reason *)
Fixpoint b64_left (sc : bool) (p : bytes) (rem : N) (i j : nat) (out : bytes) : bytes :=
  match p with
  | [] => out
  | c :: p' =>
      if Byte.eqb c NUL || (rem =? 0) then out
      else if Byte.eqb c EQ then
        match p' with
        | [] => out
        | c' :: _ => if negb (Byte.eqb c' EQ) && Nat.eqb (Nat.modulo i 4) 1 then out else b64_left sc p' (rem - 1) i j out
        end
      else
        match b64_lookup sc c with
        | Val v =>
            if Z.eqb v (-1) then b64_left sc p' (rem - 1) i j out
            else if Z.eqb v (-2) then out
            else match b64_store i j (Z.to_N v) out with
                 | Val jo => b64_left sc p' (rem - 1) (S i) (fst jo) (snd jo)
                 | _ => out
                 end
        | _ => out
        end
  end.
(* util.c:90-174 *)
Definition h_base64_decode (sc : bool) (strBase64 : option htext) : H (option htext) :=
  match strBase64 with
  | None => hret None
  | Some s =>
      m <-! h_bytes (t_buf s) ;;
      match strlen m with
      | Val n =>
          let intLength := if t_len s <? n then t_len s else n in
          objResult <-? h_buffer_create_empty intLength else hret tt ;;
          match b64_loop sc m intLength 0 0 (b_bytes objResult) with
          | UB => hub
          | Null => o <-! h_fill objResult (b64_left sc m intLength 0 0 (b_bytes objResult)) ;; h_buffer_destroy (Some o) ;;; hret None
          | Val (last, i, j, out) =>
              match b64_mop last i j out with
              | UB => hub
              | Null => o <-! h_fill objResult (b64_left sc m intLength 0 0 (b_bytes objResult)) ;; h_buffer_destroy (Some o) ;;; hret None
              | Val out' => r <-! h_fill objResult out' ;; hret (Some {| t_buf := r; t_len := N.of_nat j |})
              end
          end
      | _ => hub
      end
  end.

(* util.c:191-212 *)
Definition h_hex_encode (objData : option hbuf) : H (option htext) :=
  match objData with
  | None => hret None
  | Some b =>
      d <-! h_bytes b ;;
      retval <-? h_buffer_create_empty (wadd64 ((blen d * 2) mod two64) 1) else hret tt ;;
      let written := (hex_chars d ++ [NUL])%list in
      match memwrite (b_bytes retval) 0 written (blen written) with
      | Val m => r <-! h_fill retval m ;; hret (Some {| t_buf := r; t_len := wsub64 (blen (b_bytes retval)) 1 |})
      | _ => hub
      end
  end.
(* util.c:223-250 *)
Definition h_hex_decode (hexString : option htext) : H (option hbuf) :=
  match hexString with
  | None => hret None
  | Some s =>
      m <-! h_bytes (t_buf s) ;;
      match strlen m with
      | Val n =>
          result <-? h_buffer_create_empty (n / 2) else hret tt ;;
          match hex_loop m with
          | Val w =>
              match memwrite (b_bytes result) 0 w (blen w) with
              | Val c => r <-! h_fill result c ;; hret (Some r)
              | _ => hub
              end
          | _ => hub
          end
      | _ => hub
      end
  end.

(* fingerprint.c:174-194; the text is used without a test if half of it is asked for *)
Definition h_fingerprint_encode_for_output_mode (fingerprint : option hfp) (output_mode : fingerprint_output)
  (enc_func : option hbuf -> H (option htext)) : H (option htext) :=
  match fingerprint with
  | None => hret None
  | Some f =>
      touch (hfp_addr f) ;;;
      encoded <-! enc_func (Some (hfp_data f)) ;;
      match output_mode, encoded with
      | FP_LONG, _ => hret encoded
      | FP_SHORT, None => hub
      | FP_SHORT, Some t =>
          let short_length := t_len t / 2 in
          match put (b_bytes (t_buf t)) (N.to_nat short_length) NUL with
          | Val m => r <-! h_fill (t_buf t) m ;; hret (Some {| t_buf := r; t_len := short_length |})
          | _ => hub
          end
      end
  end.
(* a buffer as a text *)
Definition h_as_text (op : H (option hbuf)) : H (option htext) :=
  o <-! op ;; hret (option_map (fun b => {| t_buf := b; t_len := blen (b_bytes b) |}) o).
(* fingerprint.c:196-199 *)
Definition h_fingerprint_get_b32 (f : option hfp) (mode : fingerprint_output) : H (option htext) :=
  h_fingerprint_encode_for_output_mode f mode (fun b => h_as_text (h_base32_encode b)).
(* fingerprint.c:201-204 *)
Definition h_fingerprint_get_hex (f : option hfp) (mode : fingerprint_output) : H (option htext) :=
  h_fingerprint_encode_for_output_mode f mode h_hex_encode.
