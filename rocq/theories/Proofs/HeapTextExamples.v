(* Concrete arguments for the theorems of Props/PropsHeapText.v, and what goes wrong with some. *)
From Coq Require Import Strings.String.
From Verif.Base Require Import Bytes Monad.
From Verif.Model Require Import Buffer CString Hex Base64 Base32 Fingerprint Heap HeapObjects HeapText.
From Verif.Spec Require Import HeapSpec HeapObjectSpec CopySpec HeapEngineSpec HeapTextSpec.
From Verif.Proofs Require Import BytesFacts HeapFacts HeapObjectFacts HeapExamples HeapParseExamples HeapEngineFacts HeapKdfFacts HeapEngineExamples HeapTextFacts.
Local Open Scope N_scope.

Definition text_at (s : string) : bytes := list_byte_of_string s.
Definition plain1 : hbuf := {| b_addr := 1%nat; b_data := 2%nat; b_bytes := text_at "secret" |}.
(* the same bytes in each of the alphabets *)
Definition base32_1 : hbuf := {| b_addr := 1%nat; b_data := 2%nat; b_bytes := text_at "EDJP6WK5EG" |}.
Definition base64_1 : htext := {| t_buf := {| b_addr := 1%nat; b_data := 2%nat; b_bytes := text_at "c2VjcmV0" ++ [NUL] |}; t_len := 8 |}.
Definition hex_1 : htext := {| t_buf := {| b_addr := 1%nat; b_data := 2%nat; b_bytes := text_at "736563726574" ++ [NUL] |}; t_len := 12 |}.
Definition base64_spoiled : htext := {| t_buf := {| b_addr := 1%nat; b_data := 2%nat; b_bytes := text_at "c2VjcmV0!" ++ [NUL] |}; t_len := 9 |}.
Definition print1 : hfp := {| hfp_addr := 1%nat; hfp_type := FP_SHA512; hfp_data := {| b_addr := 2%nat; b_data := 3%nat; b_bytes := text_at "0123456789" |} |}.

Lemma alphabets_agree : base32_encode (Some (b_bytes plain1)) = Val (b_bytes base32_1) /\ base64_encode fresh_memory (Some (b_bytes plain1)) = Val (text_value base64_1) /\
  hex_encode fresh_memory (Some (b_bytes plain1)) = Val (text_value hex_1).
Proof. vm_compute. repeat split. Qed.

Lemma short_base32_crashes : op_crashes [fp_cells print1] (h_fingerprint_get_b32 (Some print1) FP_SHORT).
Proof. refine (op_crashes_by _ (fun _ ty => match ty with T_buffer => true | _ => false end) _ _ _); vm_compute; reflexivity. Qed.
Lemma short_hex_crashes : op_crashes [fp_cells print1] (h_fingerprint_get_hex (Some print1) FP_SHORT).
Proof. refine (op_crashes_by _ (fun _ ty => match ty with T_buffer => true | _ => false end) _ _ _); vm_compute; reflexivity. Qed.
Lemma base32_values_stay : exists values, map (fun v => nth (N.to_nat (b2n v)) b32_alphabet x00) values = b_bytes base32_1 /\
  op_exposes [buf_cells base32_1] never values (h_base32_decode (Some base32_1)).
Proof. exists (unmapped_part (b_bytes base32_1)). split; [vm_compute; reflexivity|]. apply op_exposes_by; vm_compute; reflexivity. Qed.
Lemma base64_prefix_stays : op_exposes [text_cells base64_spoiled] never (b_bytes plain1) (h_base64_decode true (Some base64_spoiled)).
Proof. apply op_exposes_by; vm_compute; reflexivity. Qed.
