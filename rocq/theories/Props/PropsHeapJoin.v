(* C113, C114: joining and cutting buffers, as operations on memory *)
From Verif.Base Require Import Bytes Monad.
From Verif.Model Require Import Buffer Heap HeapObjects HeapJoin.
From Verif.Spec Require Import HeapSpec HeapObjectSpec BufferSpec CopySpec HeapEngineSpec HeapJoinSpec.
From Verif.Proofs Require Import HeapFacts HeapObjectFacts HeapExamples HeapEngineFacts HeapKdfFacts HeapEngineExamples HeapJoinFacts.
Local Open Scope N_scope.

Definition left1 : hbuf := {| b_addr := 1%nat; b_data := 2%nat; b_bytes := [x01; x02; x03] |}.
Definition right1 : hbuf := {| b_addr := 3%nat; b_data := 4%nat; b_bytes := [x04; x05] |}.

(* --- section *)
Theorem C113_section b start len : size_t_ok start -> size_t_ok len ->
  performs_cleanly buf_cells b_bytes [oc buf_cells b]
    (cut_out (option_map b_bytes b) start len)
    []
    (h_buffer_section b start len).
Proof. exact (fun A B => op_clean _ _ _ _ _ _ _ _ _ (op_sound _ _ _ _ _ _ _ _ _ (section_rule b start len A B)) (fun X => X)). Qed.
Print Assumptions C113_section.

Example C113_section_case : performed [buf_cells left1] (h_buffer_section (Some left1) 1 2).
Proof. by_running. Qed.

Theorem C114_section b start len : size_t_ok start -> size_t_ok len ->
  performs_safely buf_cells b_bytes [oc buf_cells b]
    (cut_out (option_map b_bytes b) start len)
    []
    (h_buffer_section b start len).
Proof. exact (fun A B => op_strict _ _ _ _ _ _ (op_sound _ _ _ _ _ _ _ _ _ (section_rule b start len A B))). Qed.
Print Assumptions C114_section.

(* --- concat *)
Theorem C113_concat a b : sized (option_map b_bytes a) -> sized (option_map b_bytes b) ->
  performs_cleanly buf_cells b_bytes [oc buf_cells a; oc buf_cells b]
    (both_joined (option_map b_bytes a) (option_map b_bytes b))
    []
    (h_buffer_concat a b).
Proof. exact (fun A B => op_clean _ _ _ _ _ _ _ _ _ (op_sound _ _ _ _ _ _ _ _ _ (concat_rule a b A B)) (fun X => X)). Qed.
Print Assumptions C113_concat.

Example C113_concat_case : performed [buf_cells left1; buf_cells right1] (h_buffer_concat (Some left1) (Some right1)).
Proof. by_running. Qed.

Theorem C114_concat a b : sized (option_map b_bytes a) -> sized (option_map b_bytes b) ->
  performs_safely buf_cells b_bytes [oc buf_cells a; oc buf_cells b]
    (both_joined (option_map b_bytes a) (option_map b_bytes b))
    []
    (h_buffer_concat a b).
Proof. exact (fun A B => op_strict _ _ _ _ _ _ (op_sound _ _ _ _ _ _ _ _ _ (concat_rule a b A B))). Qed.
Print Assumptions C114_concat.

(* --- concat_multi *)
Theorem C113_concat_multi l : Forall sized (map (option_map b_bytes) l) ->
  performs_cleanly buf_cells b_bytes (map (oc buf_cells) l)
    (all_joined (map (option_map b_bytes) l))
    []
    (h_buffer_concat_multi l).
Proof. exact (fun A => op_clean _ _ _ _ _ _ _ _ _ (op_sound _ _ _ _ _ _ _ _ _ (multi_rule l A)) (fun X => X)). Qed.
Print Assumptions C113_concat_multi.

Example C113_concat_multi_case : performed [buf_cells left1; buf_cells right1] (h_buffer_concat_multi [Some left1; None; Some right1; Some left1]).
Proof. by_running. Qed.

Theorem C114_concat_multi l : Forall sized (map (option_map b_bytes) l) ->
  performs_safely buf_cells b_bytes (map (oc buf_cells) l)
    (all_joined (map (option_map b_bytes) l))
    []
    (h_buffer_concat_multi l).
Proof. exact (fun A => op_strict _ _ _ _ _ _ (op_sound _ _ _ _ _ _ _ _ _ (multi_rule l A))). Qed.
Print Assumptions C114_concat_multi.

(* the sizes are met, the results are not trivial, and an argument may be given twice *)
Example C113_values :
  sized (Some (b_bytes left1)) /\ sized (Some (b_bytes right1)) /\ size_t_ok 1 /\ size_t_ok 2 /\
  cut_out (Some (b_bytes left1)) 1 2 = Val [x02; x03] /\ cut_out (Some (b_bytes left1)) 2 2 = Null /\
  both_joined (Some (b_bytes left1)) (Some (b_bytes right1)) = Val [x01; x02; x03; x04; x05] /\
  all_joined [Some (b_bytes left1); None; Some (b_bytes right1); Some (b_bytes left1)] = Val [x01; x02; x03; x04; x05; x01; x02; x03] /\
  all_joined [None; None] = Null.
Proof. repeat split. Qed.
