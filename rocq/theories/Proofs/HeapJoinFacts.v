(* Rules for the functions of Model/HeapJoin.v. *)
From Verif.Base Require Import Bytes Monad.
From Verif.Model Require Import Buffer Heap HeapObjects HeapWrite HeapEngine HeapJoin.
From Verif.Spec Require Import HeapSpec HeapObjectSpec BufferSpec CopySpec HeapParseSpec HeapWriteSpec HeapEngineSpec HeapTextSpec HeapJoinSpec.
From Verif.Proofs Require Import BytesFacts BufferFacts BufferProps ParserFacts HeapFacts HeapObjectFacts HeapMessageFacts HeapCtxFacts HeapParseFacts HeapWriteFacts HeapEngineFacts HeapTextFacts.
From Coq Require Import ZifyBool ZifyNat ZifyN.
Local Open Scope N_scope.

Lemma memread_null b s n : memread b s n <> Null.
Proof. unfold memread. destruct (_ <=? _); discriminate. Qed.
Lemma fill_length l : forall dst n m, concat_fill l dst n = Val m -> blen m = blen dst.
Proof.
  induction l as [|[b|] l IH]; intros dst n m; cbn [concat_fill]; [intros V; injection V as <-; reflexivity| |apply IH].
  destruct (blen b =? 0); [apply IH|]. destruct (memwrite _ _ _ _) as [d| |] eqn:MW; cbn [rbind]; try discriminate. intros V. rewrite (IH _ _ _ V). eapply memwrite_length; exact MW.
Qed.
Lemma fill_null l : forall dst n, concat_fill l dst n <> Null.
Proof.
  induction l as [|[b|] l IH]; intros dst n; cbn [concat_fill]; [discriminate| |apply IH].
  destruct (blen b =? 0); [apply IH|]. destruct (memwrite _ _ _ _) as [d| |] eqn:MW; cbn [rbind]; [apply IH|destruct (memwrite_null _ _ _ _ MW)|discriminate].
Qed.

(* ---- against the functions of Model/Buffer.v ---- *)
Lemma section_raw_rule b start len : op_rule buf_cells b_bytes [oc buf_cells b] (buffer_copy_section_raw fresh_memory (option_map b_bytes b) start len) [] [] [] never_leaks_op (h_buffer_section b start len).
Proof.
  start_op. unfold h_buffer_section, buffer_copy_section_raw, buffer_create_at, fresh_memory in *. destruct b as [b|]; [|wstep; gone; left; reflexivity]. cbn [option_map oc] in *.
  args. rd. destruct (negb _); [wstep; gone; left; reflexivity|]. rewrite zeros_new in *. wstep. new_buffer.
  - wstep. gone. left. rewrite N. reflexivity.
  - wstep. gone. right. sfailed.
  - rewrite Z, B in *. cbn [lift rbind] in *. destruct (memread _ _ _) as [c| |] eqn:MR; cbn [rbind] in *; [|destruct (memread_null _ _ _ MR)|crash; reflexivity].
    destruct (memwrite _ _ _ _) as [m| |] eqn:MW; [|destruct (memwrite_null _ _ _ _ MW)|crash; reflexivity].
    wstep. fill b0. { rewrite (memwrite_length _ _ _ _ _ MW), B. reflexivity. } wstep. there. reflexivity.
Qed.
Lemma concat_raw_rule a b : op_rule buf_cells b_bytes [oc buf_cells a; oc buf_cells b] (buffer_concat_raw fresh_memory (option_map b_bytes a) (option_map b_bytes b)) [] [] [] never_leaks_op (h_buffer_concat a b).
Proof.
  start_op. unfold h_buffer_concat, buffer_concat_raw, fresh_memory in *. destruct a as [a|]; [|wstep; gone; left; reflexivity]. destruct b as [b|]; [|wstep; gone; left; reflexivity].
  cbn [option_map oc] in *. args. rd. rd. destruct (_ || _); [wstep; gone; left; reflexivity|]. destruct (wsub64 _ _ <? _); [wstep; gone; left; reflexivity|].
  rewrite zeros_new in *. wstep. new_buffer.
  - wstep. gone. left. rewrite N. reflexivity.
  - wstep. gone. right. sfailed.
  - rewrite Z, B in *. cbn [lift rbind] in *. destruct (memwrite (zeros _) _ _ _) as [m| |] eqn:MW; cbn [rbind] in *; [|destruct (memwrite_null _ _ _ _ MW)|crash; reflexivity].
    wstep. fill b0. { rewrite (memwrite_length _ _ _ _ _ MW), B. reflexivity. }
    destruct (memwrite m _ _ _) as [m'| |] eqn:MW'; [|destruct (memwrite_null _ _ _ _ MW')|crash; reflexivity].
    set (half := {| b_addr := b_addr b0; b_data := b_data b0; b_bytes := m |}) in *.
    wstep. fill half. { rewrite (memwrite_length _ _ _ _ _ MW'). reflexivity. } wstep. there. reflexivity.
Qed.
Lemma bytes_each_wp secret (U W : Prop) fails h0 X h : forall l (Q : list (option bytes) -> heap -> Prop),
  ext secret W h0 X h -> all_in_memory h0 (map (oc buf_cells) l) -> Q (map (option_map b_bytes) l) h -> wp U fails (h_bytes_each l) h Q.
Proof.
  induction l as [|b l IH]; intros Q E M G; cbn [h_bytes_each map] in *; [wstep; exact G|]. apply all_cons in M. destruct M as (M1 & M).
  rdo. wstep. apply IH; [exact E|exact M|]. wstep. exact G.
Qed.
Lemma multi_raw_rule l : op_rule buf_cells b_bytes (map (oc buf_cells) l) (buffer_concat_multi_raw fresh_memory (map (option_map b_bytes) l)) [] [] [] never_leaks_op (h_buffer_concat_multi l).
Proof.
  start_op. unfold h_buffer_concat_multi, buffer_concat_multi_raw, fresh_memory in *. destruct l as [|b l]; [wstep; gone; left; reflexivity|].
  set (bs := b :: l) in *. assert (NE : forall (T : Type) (x y : T), match map (option_map b_bytes) bs with [] => x | _ => y end = y) by reflexivity. rewrite NE in *. clear NE. clearbody bs.
  wstep. eapply bytes_each_wp; [exact E|exact M|]. destruct (concat_count _ _) as [count|]; cbn [lift rbind] in *; [|wstep; gone; left; reflexivity].
  rewrite zeros_new in *. wstep. new_buffer.
  - wstep. gone. left. rewrite N. reflexivity.
  - wstep. gone. right. sfailed.
  - rewrite Z, B in *. cbn [lift rbind] in *. destruct (concat_fill _ _ _) as [m| |] eqn:CF; [|destruct (fill_null _ _ _ CF)|crash; reflexivity].
    wstep. fill b0. { rewrite (fill_length _ _ _ _ CF), B. reflexivity. } wstep. there. reflexivity.
Qed.

(* ---- against Spec/HeapJoinSpec.v ---- *)
Lemma as_buffer_eq b : lift (buffer_create b) = as_buffer b.
Proof. unfold buffer_create, size_ok, as_buffer, MAX_BUFFER_SIZE, library_limit. destruct (_ && _); reflexivity. Qed.
Lemma sized_obytes o : sized o -> blen (obytes o) < two64.
Proof. destruct o as [b|]; [intros S; exact S|intros _; reflexivity]. Qed.
Lemma section_rule b start len : size_t_ok start -> size_t_ok len ->
  op_rule buf_cells b_bytes [oc buf_cells b] (cut_out (option_map b_bytes b) start len) [] [] [] never_leaks_op (h_buffer_section b start len).
Proof.
  intros S L. replace (cut_out (option_map b_bytes b) start len) with (buffer_copy_section_raw fresh_memory (option_map b_bytes b) start len); [apply section_raw_rule|].
  destruct b as [b|]; [|reflexivity]. cbn [option_map cut_out]. rewrite buffer_copy_section_raw_eq by assumption. unfold buffer_copy_section, section_ok, MAX_BUFFER_SIZE, library_limit.
  destruct (_ && _); reflexivity.
Qed.
Lemma concat_rule a b : sized (option_map b_bytes a) -> sized (option_map b_bytes b) ->
  op_rule buf_cells b_bytes [oc buf_cells a; oc buf_cells b] (both_joined (option_map b_bytes a) (option_map b_bytes b)) [] [] [] never_leaks_op (h_buffer_concat a b).
Proof.
  intros SA SB. replace (both_joined _ _) with (buffer_concat_raw fresh_memory (option_map b_bytes a) (option_map b_bytes b)); [apply concat_raw_rule|].
  rewrite buffer_concat_raw_eq by (apply sized_obytes; assumption). destruct a as [a|], b as [b|]; cbn [option_map buffer_concat both_joined]; try reflexivity. apply as_buffer_eq.
Qed.
Lemma multi_rule l : Forall sized (map (option_map b_bytes) l) ->
  op_rule buf_cells b_bytes (map (oc buf_cells) l) (all_joined (map (option_map b_bytes) l)) [] [] [] never_leaks_op (h_buffer_concat_multi l).
Proof.
  intros S. replace (all_joined _) with (buffer_concat_multi_raw fresh_memory (map (option_map b_bytes) l)); [apply multi_raw_rule|].
  rewrite buffer_concat_multi_raw_eq by (eapply Forall_impl; [|exact S]; intros o; apply sized_obytes). unfold buffer_concat_multi, all_joined. rewrite joined_eq. apply as_buffer_eq.
Qed.
