(* What the functions that work on texts owe their caller in terms of memory; the obligations
   themselves are those of Spec/HeapEngineSpec.v. *)
From Verif.Base Require Import Bytes.
From Verif.Model Require Import Buffer CString Hex Base64 Base32 Fingerprint Heap HeapObjects HeapEngine HeapText.
From Verif.Spec Require Import HeapSpec HeapEngineSpec.
Local Open Scope N_scope.

(* the bytes a user of the buffer sees *)
Definition text_data (t : htext) : bytes := cb_data (text_value t).
(* what malloc leaves behind is taken to be zeros *)
Definition fresh_memory : nat -> byte := fun _ => x00.
(* what may stay readable when base32 is decoded: the values of the characters, and the
   characters from the first on that is not one *)
Definition base32_decode_public (text : option bytes) : list bytes := match text with Some t => [unmapped_part t] | None => [] end.
(* when base64 is decoded: what was decoded before a character was rejected *)
Definition base64_decode_public (sc : bool) (text : option cbuf) : list bytes :=
  match text with
  | Some s => match strlen (cb_mem s) with Val n => let len := if cb_len s <? n then cb_len s else n in [b64_left sc (cb_mem s) len 0 0 (zeros (N.to_nat len))] | _ => [] end
  | None => []
  end.
(* the text of a fingerprint is used without a test if half of it is asked for *)
Definition short_kinds (mode : fingerprint_output) : list ctype := match mode with FP_SHORT => buffer_kinds | FP_LONG => [] end.
