(* C110-C112: texts, as operations on memory *)
From Verif.Base Require Import Bytes Monad.
From Verif.Model Require Import Buffer CString Hex Base64 Base32 Fingerprint Heap HeapObjects HeapText.
From Verif.Spec Require Import HeapSpec HeapObjectSpec CopySpec HeapEngineSpec HeapTextSpec.
From Verif.Proofs Require Import HeapFacts HeapObjectFacts HeapExamples HeapEngineFacts HeapKdfFacts HeapEngineExamples HeapTextFacts HeapTextExamples.
Local Open Scope N_scope.

(* --- base32_encode *)
Theorem C110_base32_encode b :
  performs_cleanly buf_cells b_bytes [oc buf_cells b]
    (base32_encode (option_map b_bytes b))
    []
    (h_base32_encode b).
Proof. exact (op_clean _ _ _ _ _ _ _ _ _ (op_sound _ _ _ _ _ _ _ _ _ (base32_encode_rule b)) (fun X => X)). Qed.
Print Assumptions C110_base32_encode.

Example C110_base32_encode_case : performed [buf_cells plain1] (h_base32_encode (Some plain1)).
Proof. by_running. Qed.

Theorem C111_base32_encode b :
  performs_safely buf_cells b_bytes [oc buf_cells b]
    (base32_encode (option_map b_bytes b))
    []
    (h_base32_encode b).
Proof. exact (op_strict _ _ _ _ _ _ (op_sound _ _ _ _ _ _ _ _ _ (base32_encode_rule b))). Qed.
Print Assumptions C111_base32_encode.

Theorem C112_base32_encode b :
  hides_op [oc buf_cells b]
    ([] ++ [])
    (h_base32_encode b).
Proof. exact (op_hides _ _ _ _ _ _ _ _ _ (base32_encode_rule b)). Qed.
Print Assumptions C112_base32_encode.

(* --- base32_decode *)
Theorem C110_base32_decode b :
  performs_cleanly text_cells text_data [oc buf_cells b]
    (base32_decode (option_map b_bytes b))
    (base32_decode_public (option_map b_bytes b))
    (h_base32_decode b).
Proof. exact (op_clean _ _ _ _ _ _ _ _ _ (op_sound _ _ _ _ _ _ _ _ _ (base32_decode_rule b)) (fun X => X)). Qed.
Print Assumptions C110_base32_decode.

Example C110_base32_decode_case : performed [buf_cells base32_1] (h_base32_decode (Some base32_1)).
Proof. by_running. Qed.

Theorem C111_base32_decode b :
  performs_safely text_cells text_data [oc buf_cells b]
    (base32_decode (option_map b_bytes b))
    (base32_decode_public (option_map b_bytes b))
    (h_base32_decode b).
Proof. exact (op_strict _ _ _ _ _ _ (op_sound _ _ _ _ _ _ _ _ _ (base32_decode_rule b))). Qed.
Print Assumptions C111_base32_decode.

Theorem C112_base32_decode_partial b :
  hides_op [oc buf_cells b]
    ((base32_decode_public (option_map b_bytes b)) ++ [])
    (h_base32_decode b).
Proof. exact (op_hides _ _ _ _ _ _ _ _ _ (base32_decode_rule b)). Qed.
Print Assumptions C112_base32_decode_partial.

(* --- base64_encode *)
Theorem C110_base64_encode b :
  performs_cleanly text_cells text_value [oc buf_cells b]
    (base64_encode fresh_memory (option_map b_bytes b))
    []
    (h_base64_encode b).
Proof. exact (op_clean _ _ _ _ _ _ _ _ _ (op_sound _ _ _ _ _ _ _ _ _ (base64_encode_rule b)) (fun X => X)). Qed.
Print Assumptions C110_base64_encode.

Example C110_base64_encode_case : performed [buf_cells plain1] (h_base64_encode (Some plain1)).
Proof. by_running. Qed.

Theorem C111_base64_encode b :
  performs_safely text_cells text_value [oc buf_cells b]
    (base64_encode fresh_memory (option_map b_bytes b))
    []
    (h_base64_encode b).
Proof. exact (op_strict _ _ _ _ _ _ (op_sound _ _ _ _ _ _ _ _ _ (base64_encode_rule b))). Qed.
Print Assumptions C111_base64_encode.

Theorem C112_base64_encode b :
  hides_op [oc buf_cells b]
    ([] ++ [])
    (h_base64_encode b).
Proof. exact (op_hides _ _ _ _ _ _ _ _ _ (base64_encode_rule b)). Qed.
Print Assumptions C112_base64_encode.

(* --- base64_decode *)
Theorem C110_base64_decode sc s :
  performs_cleanly text_cells text_value [oc text_cells s]
    (base64_decode sc (option_map text_value s))
    (base64_decode_public sc (option_map text_value s))
    (h_base64_decode sc s).
Proof. exact (op_clean _ _ _ _ _ _ _ _ _ (op_sound _ _ _ _ _ _ _ _ _ (base64_decode_rule sc s)) (fun X => X)). Qed.
Print Assumptions C110_base64_decode.

Example C110_base64_decode_case : performed [text_cells base64_1] (h_base64_decode true (Some base64_1)).
Proof. by_running. Qed.

Theorem C111_base64_decode sc s :
  performs_safely text_cells text_value [oc text_cells s]
    (base64_decode sc (option_map text_value s))
    (base64_decode_public sc (option_map text_value s))
    (h_base64_decode sc s).
Proof. exact (op_strict _ _ _ _ _ _ (op_sound _ _ _ _ _ _ _ _ _ (base64_decode_rule sc s))). Qed.
Print Assumptions C111_base64_decode.

Theorem C112_base64_decode_partial sc s :
  hides_op [oc text_cells s]
    ((base64_decode_public sc (option_map text_value s)) ++ [])
    (h_base64_decode sc s).
Proof. exact (op_hides _ _ _ _ _ _ _ _ _ (base64_decode_rule sc s)). Qed.
Print Assumptions C112_base64_decode_partial.

(* --- hex_encode *)
Theorem C110_hex_encode b :
  performs_cleanly text_cells text_value [oc buf_cells b]
    (hex_encode fresh_memory (option_map b_bytes b))
    []
    (h_hex_encode b).
Proof. exact (op_clean _ _ _ _ _ _ _ _ _ (op_sound _ _ _ _ _ _ _ _ _ (hex_encode_rule b)) (fun X => X)). Qed.
Print Assumptions C110_hex_encode.

Example C110_hex_encode_case : performed [buf_cells plain1] (h_hex_encode (Some plain1)).
Proof. by_running. Qed.

Theorem C111_hex_encode b :
  performs_safely text_cells text_value [oc buf_cells b]
    (hex_encode fresh_memory (option_map b_bytes b))
    []
    (h_hex_encode b).
Proof. exact (op_strict _ _ _ _ _ _ (op_sound _ _ _ _ _ _ _ _ _ (hex_encode_rule b))). Qed.
Print Assumptions C111_hex_encode.

Theorem C112_hex_encode b :
  hides_op [oc buf_cells b]
    ([] ++ [])
    (h_hex_encode b).
Proof. exact (op_hides _ _ _ _ _ _ _ _ _ (hex_encode_rule b)). Qed.
Print Assumptions C112_hex_encode.

(* --- hex_decode *)
Theorem C110_hex_decode s :
  performs_cleanly buf_cells b_bytes [oc text_cells s]
    (hex_decode fresh_memory (option_map text_value s))
    []
    (h_hex_decode s).
Proof. exact (op_clean _ _ _ _ _ _ _ _ _ (op_sound _ _ _ _ _ _ _ _ _ (hex_decode_rule s)) (fun X => X)). Qed.
Print Assumptions C110_hex_decode.

Example C110_hex_decode_case : performed [text_cells hex_1] (h_hex_decode (Some hex_1)).
Proof. by_running. Qed.

Theorem C111_hex_decode s :
  performs_safely buf_cells b_bytes [oc text_cells s]
    (hex_decode fresh_memory (option_map text_value s))
    []
    (h_hex_decode s).
Proof. exact (op_strict _ _ _ _ _ _ (op_sound _ _ _ _ _ _ _ _ _ (hex_decode_rule s))). Qed.
Print Assumptions C111_hex_decode.

Theorem C112_hex_decode s :
  hides_op [oc text_cells s]
    ([] ++ [])
    (h_hex_decode s).
Proof. exact (op_hides _ _ _ _ _ _ _ _ _ (hex_decode_rule s)). Qed.
Print Assumptions C112_hex_decode.

(* --- fingerprint_base32 *)
Theorem C110_fingerprint_base32 f mode :
  performs_cleanly text_cells text_value [oc fp_cells f]
    (fingerprint_get_b32 (option_map fp_value f) mode)
    []
    (h_fingerprint_get_b32 f mode).
Proof. exact (op_clean _ _ _ _ _ _ _ _ _ (op_sound _ _ _ _ _ _ _ _ _ (fingerprint_b32_rule f mode)) (fun X => X)). Qed.
Print Assumptions C110_fingerprint_base32.

Example C110_fingerprint_base32_case : performed [fp_cells print1] (h_fingerprint_get_b32 (Some print1) FP_SHORT).
Proof. by_running. Qed.

Theorem C111_fingerprint_base32_long f :
  performs_safely text_cells text_value [oc fp_cells f]
    (fingerprint_get_b32 (option_map fp_value f) FP_LONG)
    []
    (h_fingerprint_get_b32 f FP_LONG).
Proof. exact (op_strict _ _ _ _ _ _ (op_sound _ _ _ _ _ _ _ _ _ (fingerprint_b32_rule f FP_LONG))). Qed.
Print Assumptions C111_fingerprint_base32_long.

Theorem C111_fingerprint_base32_partial f mode :
  performs_in_memory text_cells text_value [oc fp_cells f]
    (fingerprint_get_b32 (option_map fp_value f) mode)
    []
    []
    (short_kinds mode)
    never_leaks_op
    (h_fingerprint_get_b32 f mode).
Proof. exact (op_sound _ _ _ _ _ _ _ _ _ (fingerprint_b32_rule f mode)). Qed.
Print Assumptions C111_fingerprint_base32_partial.

Theorem C112_fingerprint_base32 f mode :
  hides_op [oc fp_cells f]
    ([] ++ [])
    (h_fingerprint_get_b32 f mode).
Proof. exact (op_hides _ _ _ _ _ _ _ _ _ (fingerprint_b32_rule f mode)). Qed.
Print Assumptions C112_fingerprint_base32.

(* --- fingerprint_hex *)
Theorem C110_fingerprint_hex f mode :
  performs_cleanly text_cells text_value [oc fp_cells f]
    (fingerprint_get_hex fresh_memory (option_map fp_value f) mode)
    []
    (h_fingerprint_get_hex f mode).
Proof. exact (op_clean _ _ _ _ _ _ _ _ _ (op_sound _ _ _ _ _ _ _ _ _ (fingerprint_hex_rule f mode)) (fun X => X)). Qed.
Print Assumptions C110_fingerprint_hex.

Example C110_fingerprint_hex_case : performed [fp_cells print1] (h_fingerprint_get_hex (Some print1) FP_SHORT).
Proof. by_running. Qed.

Theorem C111_fingerprint_hex_long f :
  performs_safely text_cells text_value [oc fp_cells f]
    (fingerprint_get_hex fresh_memory (option_map fp_value f) FP_LONG)
    []
    (h_fingerprint_get_hex f FP_LONG).
Proof. exact (op_strict _ _ _ _ _ _ (op_sound _ _ _ _ _ _ _ _ _ (fingerprint_hex_rule f FP_LONG))). Qed.
Print Assumptions C111_fingerprint_hex_long.

Theorem C111_fingerprint_hex_partial f mode :
  performs_in_memory text_cells text_value [oc fp_cells f]
    (fingerprint_get_hex fresh_memory (option_map fp_value f) mode)
    []
    []
    (short_kinds mode)
    never_leaks_op
    (h_fingerprint_get_hex f mode).
Proof. exact (op_sound _ _ _ _ _ _ _ _ _ (fingerprint_hex_rule f mode)). Qed.
Print Assumptions C111_fingerprint_hex_partial.

Theorem C112_fingerprint_hex f mode :
  hides_op [oc fp_cells f]
    ([] ++ [])
    (h_fingerprint_get_hex f mode).
Proof. exact (op_hides _ _ _ _ _ _ _ _ _ (fingerprint_hex_rule f mode)). Qed.
Print Assumptions C112_fingerprint_hex.

(* --- what goes wrong *)
Theorem C111_fingerprint_base32_refuted : op_crashes [fp_cells print1] (h_fingerprint_get_b32 (Some print1) FP_SHORT).
Proof. exact short_base32_crashes. Qed.
Print Assumptions C111_fingerprint_base32_refuted.

Theorem C111_fingerprint_hex_refuted : op_crashes [fp_cells print1] (h_fingerprint_get_hex (Some print1) FP_SHORT).
Proof. exact short_hex_crashes. Qed.
Print Assumptions C111_fingerprint_hex_refuted.

(* the values of the characters stay readable: they are the text in another alphabet *)
Theorem C112_base32_decode_refuted : exists values, map (fun v => nth (N.to_nat (b2n v)) b32_alphabet x00) values = b_bytes base32_1 /\
  op_exposes [buf_cells base32_1] never values (h_base32_decode (Some base32_1)).
Proof. exact base32_values_stay. Qed.
Print Assumptions C112_base32_decode_refuted.

(* what was decoded before a character is rejected stays readable *)
Theorem C112_base64_decode_refuted : op_exposes [text_cells base64_spoiled] never (b_bytes plain1) (h_base64_decode true (Some base64_spoiled)).
Proof. exact base64_prefix_stays. Qed.
Print Assumptions C112_base64_decode_refuted.
