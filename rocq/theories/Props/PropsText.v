(* C04 - C09: base64, hexadecimal and base32 text *)
From Coq Require Import Strings.String.
From Verif.Base Require Import Bytes.
From Verif.Model Require Import Buffer CString Base64 Hex Base32.
From Verif.Spec Require Import TextSpec BufferSpec.
From Verif.Proofs Require Import TextProps.
Local Open Scope N_scope.
Local Notation str s := (list_byte_of_string s).

(* C04: the encoder produces the RFC 4648 text, NUL-terminated.  (An object of 2^63 or more
   bytes does not exist in C.) *)
Theorem C04_base64_text : forall junk d, blen d < 2 ^ 63 ->
  (0 < blen d -> within_limit (blen (spec_base64 d) + 1) ->
     exists c, base64_encode junk (Some d) = Val c /\
       cb_mem c = (spec_base64 d ++ [x00])%list /\ cb_len c = blen (spec_base64 d)) /\
  (~ (0 < blen d /\ within_limit (blen (spec_base64 d) + 1)) -> base64_encode junk (Some d) = Null).
Proof. exact base64_encode_prop. Qed.
Print Assumptions C04_base64_text.

(* C04: round trip; sc says whether the platform's char is signed *)
Theorem C04_base64_roundtrip : forall sc junk d c, blen d < 2 ^ 63 ->
  base64_encode junk (Some d) = Val c ->
  exists r, base64_decode sc (Some c) = Val r /\ cb_data r = d /\ cb_len r = blen d.
Proof. exact base64_roundtrip_prop. Qed.
Print Assumptions C04_base64_roundtrip.

Example C04_case :
  base64_encode (fun _ => xff) (Some (str "fooba")) =
    Val {| cb_mem := (str "Zm9vYmE=" ++ [x00])%list; cb_len := 8 |} /\
  spec_base64 (str "foob") = str "Zm9vYg==".
Proof. split; vm_compute; reflexivity. Qed.

(* C05, the true part: the input is a C string, the characters do not give negative indices and
   the length field is not 2 in front of an '='.  Missing from the full statement: the cases of
   the three refutations below. *)
Theorem C05_base64_decode_safe_partial : forall sc s rest len,
  no_nul s -> (sc = false \/ ascii s) -> ~ (len = 2 /\ nth_error s 2 = Some (n2b 61)) ->
  base64_decode sc (Some {| cb_mem := (s ++ x00 :: rest)%list; cb_len := len |}) <> UB /\
  (forall r, base64_decode sc (Some {| cb_mem := (s ++ x00 :: rest)%list; cb_len := len |}) = Val r ->
     cb_len r <= blen (cb_mem r)).
Proof. exact base64_safe_prop. Qed.
Print Assumptions C05_base64_decode_safe_partial.

Example C05_case : exists r,
  base64_decode true (Some {| cb_mem := (str "Zm9vYg==" ++ [x00])%list; cb_len := 8 |}) = Val r /\
  cb_data r = str "foob".
Proof. eexists. split; vm_compute; reflexivity. Qed.

(* C05 refuted: a byte above 0x7f indexes the table before its start where char is signed *)
Theorem C05_high_byte_refuted : exists s,
  no_nul s /\ base64_decode true (Some {| cb_mem := (s ++ [x00])%list; cb_len := blen s |}) = UB.
Proof. exists [xc3; xa9]. split; [intros [H|[H|[]]]; discriminate|vm_compute; reflexivity]. Qed.
Print Assumptions C05_high_byte_refuted.
(* C05 refuted: one byte past a two-byte result is written *)
Theorem C05_overflow_refuted : exists s len,
  no_nul s /\ ascii s /\ len <= blen s /\
  base64_decode false (Some {| cb_mem := (s ++ [x00])%list; cb_len := len |}) = UB.
Proof.
  exists (str "QQ=="), 2. split; [intros H; repeat destruct H as [H|H]; discriminate || contradiction|].
  split; [repeat constructor|]. split; [discriminate|vm_compute; reflexivity].
Qed.
Print Assumptions C05_overflow_refuted.
(* C05 refuted: an ordinary buffer without a NUL byte is read past its end *)
Theorem C05_unterminated_refuted : exists s, ascii s /\ base64_decode false (Some (cbuf_of s)) = UB.
Proof. exists (str "QUJD"). split; [repeat constructor|vm_compute; reflexivity]. Qed.
Print Assumptions C05_unterminated_refuted.

(* C06 *)
Theorem C06_hex_text : forall junk d, blen d < 2 ^ 63 ->
  (within_limit (2 * blen d + 1) ->
     exists c, hex_encode junk (Some d) = Val c /\
       cb_mem c = (spec_hex d ++ [x00])%list /\ cb_len c = blen (spec_hex d)) /\
  (~ within_limit (2 * blen d + 1) -> hex_encode junk (Some d) = Null).
Proof. exact hex_encode_prop. Qed.
Print Assumptions C06_hex_text.

Theorem C06_hex_roundtrip : forall junk junk' d c, 0 < blen d -> blen d < 2 ^ 63 ->
  hex_encode junk (Some d) = Val c -> hex_decode junk' (Some c) = Val d.
Proof. exact hex_roundtrip_prop. Qed.
Print Assumptions C06_hex_roundtrip.

Example C06_case : hex_encode (fun _ => xff) (Some [x00; xaf; x19]) =
  Val {| cb_mem := (str "00af19" ++ [x00])%list; cb_len := 6 |}.
Proof. vm_compute. reflexivity. Qed.

(* C07, the true part: well-formed text decodes to its meaning, every C string is processed
   without undefined behaviour, and the only rejected texts are those with fewer than two
   characters (or too long).  Missing: rejection of malformed text. *)
Theorem C07_hex_decode_partial : forall junk s rest len, no_nul s ->
  let input := Some {| cb_mem := (s ++ x00 :: rest)%list; cb_len := len |} in
  hex_decode junk input <> UB /\
  (forall r, hex_meaning s = Some r -> within_limit (blen r) -> hex_decode junk input = Val r) /\
  (~ within_limit (blen s / 2) -> hex_decode junk input = Null) /\
  (within_limit (blen s / 2) -> exists r, hex_decode junk input = Val r /\ blen r = blen s / 2).
Proof. exact hex_decode_prop. Qed.
Print Assumptions C07_hex_decode_partial.

Example C07_case : hex_meaning (str "0aFf") = Some [x0a; xff].
Proof. vm_compute. reflexivity. Qed.

(* C07 refuted: text that is not hexadecimal is accepted *)
Theorem C07_malformed_refuted : exists s r,
  no_nul s /\ hex_meaning s = None /\
  hex_decode (fun _ => x00) (Some {| cb_mem := (s ++ [x00])%list; cb_len := blen s |}) = Val r.
Proof.
  exists (str "zz 1-2"), [x00; x01; xfe].
  split; [intros H; repeat destruct H as [H|H]; discriminate || contradiction|].
  split; vm_compute; reflexivity.
Qed.
Print Assumptions C07_malformed_refuted.

(* C08.  At 2^61-1 bytes b32.c refuses to compute a length; such buffers do not exist. *)
Theorem C08_base32_text : forall d, 0 < blen d -> blen d < 2 ^ 61 - 1 ->
  (within_limit ((8 * blen d + 4) / 5) ->
     exists t, base32_encode (Some d) = Val t /\ t = spec_base32 d /\
       blen t = (8 * blen d + 4) / 5 /\ Forall (fun c => In c crockford_alphabet) t) /\
  (~ within_limit ((8 * blen d + 4) / 5) -> base32_encode (Some d) = Null).
Proof. exact base32_encode_prop. Qed.
Print Assumptions C08_base32_text.

Theorem C08_base32_roundtrip : forall d t, 0 < blen d -> blen d < 2 ^ 61 ->
  base32_encode (Some d) = Val t -> base32_decode (Some t) = Val d.
Proof. exact base32_roundtrip_prop. Qed.
Print Assumptions C08_base32_roundtrip.

Example C08_case :
  base32_encode (Some (str "foobar")) = Val (str "CSQPYRK1E8") /\ spec_base32 (str "foobar") = str "CSQPYRK1E8".
Proof. split; vm_compute; reflexivity. Qed.

(* C09 *)
Theorem C09_base32_decode : forall t,
  base32_decode (Some t) <> UB /\
  (~ Forall (fun c => In c crockford_alphabet) t -> base32_decode (Some t) = Null) /\
  (forall r, base32_decode (Some t) = Val r -> blen r = 5 * blen t / 8) /\
  (Forall (fun c => In c crockford_alphabet) t -> 2 <= blen t -> blen t <= library_limit ->
     exists r, base32_decode (Some t) = Val r).
Proof. exact base32_decode_prop. Qed.
Print Assumptions C09_base32_decode.

Example C09_case : base32_decode (Some (str "CSQPYRK1E8")) = Val (str "foobar") /\
  base32_decode (Some (str "CSQPYRK1EU")) = Null /\ base32_decode (Some (str "csqp")) = Null.
Proof. repeat split; vm_compute; reflexivity. Qed.
