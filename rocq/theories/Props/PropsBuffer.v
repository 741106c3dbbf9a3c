(* C01, C02: sections and concatenation of buffers *)
From Verif.Base Require Import Bytes.
From Verif.Model Require Import Buffer.
From Verif.Spec Require Import BufferSpec.
From Verif.Proofs Require Import BufferProps.
Local Open Scope N_scope.

(* C01: copy_section; junk is whatever malloc leaves in new memory *)
Theorem C01_copy_section : forall junk b start len, start < two64 -> len < two64 ->
  (section_fits b start len ->
     exists r, buffer_copy_section_raw junk (Some b) start len = Val r /\ is_section b start len r) /\
  (~ section_fits b start len -> buffer_copy_section_raw junk (Some b) start len = Null) /\
  buffer_copy_section_raw junk None start len = Null.
Proof. exact copy_section_prop. Qed.
Print Assumptions C01_copy_section.

Example C01_copy_section_case : section_fits [x01; x02; x03; x04] 1 2 /\
  buffer_copy_section_raw (fun _ => xff) (Some [x01; x02; x03; x04]) 1 2 = Val [x02; x03] /\
  ~ section_fits [x01; x02; x03; x04] 18446744073709551615 2 /\
  buffer_copy_section_raw (fun _ => xff) (Some [x01; x02; x03; x04]) 18446744073709551615 2 = Null.
Proof. repeat split; try reflexivity; try (vm_compute; intuition discriminate). Qed.

(* C01: modify_section; Null is "returns false", which leaves the buffer as it is.
   The caller passes a pointer to at least len bytes. *)
Theorem C01_modify_section : forall b src start len, start < two64 -> len < two64 ->
  (section_fits b start len -> len <= blen src ->
     exists b', buffer_modify_section_raw (Some b) (Some src) start len = Val b' /\ is_update b start len src b') /\
  (~ section_fits b start len -> buffer_modify_section_raw (Some b) (Some src) start len = Null) /\
  buffer_modify_section_raw None (Some src) start len = Null /\
  buffer_modify_section_raw (Some b) None start len = Null.
Proof. exact modify_section_prop. Qed.
Print Assumptions C01_modify_section.

Example C01_modify_section_case :
  buffer_modify_section_raw (Some [x01; x02; x03; x04]) (Some [xaa; xbb]) 1 2 = Val [x01; xaa; xbb; x04] /\
  buffer_modify_section_raw (Some [x01; x02; x03; x04]) (Some [xaa; xbb]) 3 2 = Null.
Proof. split; reflexivity. Qed.

(* C02 *)
Theorem C02_concat_multi : forall junk bufs,
  Forall (fun o => forall b, o = Some b -> blen b < two64) bufs ->
  (within_limit (blen (joined bufs)) -> buffer_concat_multi_raw junk bufs = Val (joined bufs)) /\
  (~ within_limit (blen (joined bufs)) -> buffer_concat_multi_raw junk bufs = Null).
Proof. exact concat_multi_prop. Qed.
Print Assumptions C02_concat_multi.

Theorem C02_concat : forall junk a b, blen a < two64 -> blen b < two64 ->
  (within_limit (blen (a ++ b)) -> buffer_concat_raw junk (Some a) (Some b) = Val (a ++ b)) /\
  (~ within_limit (blen (a ++ b)) -> buffer_concat_raw junk (Some a) (Some b) = Null) /\
  buffer_concat_raw junk None (Some b) = Null /\ buffer_concat_raw junk (Some a) None = Null.
Proof. exact concat_prop. Qed.
Print Assumptions C02_concat.

Example C02_case :
  buffer_concat_multi_raw (fun _ => xee) [Some [x01]; None; Some []; Some [x02; x03]] = Val [x01; x02; x03] /\
  buffer_concat_multi_raw (fun _ => xee) [None; Some []] = Null /\
  buffer_concat_raw (fun _ => xee) (Some [x01]) (Some []) = Val [x01].
Proof. repeat split. Qed.
