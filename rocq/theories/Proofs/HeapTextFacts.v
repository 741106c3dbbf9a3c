(* Rules for the functions of Model/HeapText.v. *)
From Verif.Base Require Import Bytes Monad.
From Verif.Model Require Import Buffer CString Hex Base64 Base32 Fingerprint Heap HeapObjects HeapWrite HeapEngine HeapText.
From Verif.Spec Require Import HeapSpec HeapObjectSpec BufferSpec CopySpec HeapParseSpec HeapWriteSpec HeapEngineSpec HeapProtocolSpec HeapGenerateSpec HeapTextSpec.
From Verif.Proofs Require Import BytesFacts BufferFacts ParserFacts HeapFacts HeapObjectFacts HeapMessageFacts HeapCtxFacts HeapParseFacts HeapWriteFacts HeapEngineFacts HeapKdfFacts HeapProtocolFacts HeapGenerateFacts.
From Verif.Proofs Require TextSafety.
From Coq Require Import ZifyBool ZifyNat ZifyN.
Local Open Scope N_scope.

(* ---- lengths ---- *)
Lemma zeros_new len : buffer_create_empty (fun _ => x00) len = if size_ok len then Some (zeros (N.to_nat len)) else None.
Proof.
  destruct (size_ok len) eqn:S; [|apply create_empty_none; exact S]. destruct (proj2 (create_empty_ok (fun _ => x00) len) S) as (b & B). rewrite B. f_equal.
  unfold buffer_create_empty in B. destruct (_ || _); [discriminate B|]. apply Some_inj' in B. rewrite <- B. unfold zeros. generalize (N.to_nat len) as n. clear.
  intros n. generalize 0%nat as a. induction n as [|n IH]; intros a; [reflexivity|]. cbn [seq map repeat]. f_equal. apply IH.
Qed.
Lemma memwrite_length dst s src n m : memwrite dst s src n = Val m -> blen m = blen dst.
Proof.
  unfold memwrite. destruct (memread src 0 n) as [x| |] eqn:R; cbn [rbind]; try discriminate. destruct (s + n <=? blen dst) eqn:L; [|discriminate]. intros V. injection V as <-.
  assert (X : blen x = n). { unfold memread in R. destruct (0 + n <=? blen src) eqn:LL; [|discriminate R]. injection R as <-. apply slice_blen. lia. }
  unfold blen in *. rewrite !app_length, firstn_length, skipn_length. lia.
Qed.
Lemma code_length blk isz tl inp out m : b32_code blk isz tl inp out = Val m -> blen m = blen out.
Proof.
  unfold b32_code. cbv zeta. destruct (b32_blocks _ _ _ _) as [w| |]; cbn [rbind]; try discriminate. destruct (blk _) as [o|]; cbn [lift rbind]; try discriminate.
  destruct (memread _ _ _) as [t| |]; cbn [rbind]; try discriminate. apply memwrite_length.
Qed.
Lemma map_length l r : b32_encode_map l = Some r -> blen r = blen l.
Proof.
  revert r. induction l as [|c l IH]; intros r; cbn [b32_encode_map]; [intros V; apply Some_inj' in V; subst r; reflexivity|]. destruct (32 <=? b2n c); [discriminate|].
  destruct (b32_encode_map l) as [x|]; [|discriminate]. intros V. apply Some_inj' in V. subst r. specialize (IH _ eq_refl). unfold blen in *. cbn [length]. lia.
Qed.
Lemma part_length l : blen (unmapped_part l) = blen l.
Proof. induction l as [|c l IH]; cbn [unmapped_part]; [reflexivity|]. destruct (b32_rmap c =? 255); [reflexivity|]. unfold blen in *. cbn [length]. lia. Qed.
Lemma put_length m i v m' : put m i v = Val m' -> blen m' = blen m.
Proof. intros V. assert (L : (i < length m)%nat) by (unfold put in V; destruct (Nat.ltb_spec i (length m)); [assumption|discriminate V]). destruct (TextSafety.put_ok m i v L) as (x & X1 & X2). unfold blen. congruence. Qed.
Lemma put_or_length m i v m' : put_or m i v = Val m' -> blen m' = blen m.
Proof. unfold put_or. destruct (nth_error m i); [apply put_length|discriminate]. Qed.
Lemma store_length i j v out j' out' : b64_store i j v out = Val (j', out') -> blen out' = blen out.
Proof.
  unfold b64_store. destruct (Nat.modulo i 4) as [|[|[|k]]].
  - destruct (put _ _ _) eqn:A; cbn [rbind]; try discriminate. intros V. injection V as <- <-. eapply put_length; exact A.
  - destruct (put_or _ _ _) eqn:A; cbn [rbind]; try discriminate. destruct (put _ _ _) eqn:B; cbn [rbind]; try discriminate. intros V. injection V as <- <-.
    apply put_length in B. apply put_or_length in A. congruence.
  - destruct (put_or _ _ _) eqn:A; cbn [rbind]; try discriminate. destruct (put _ _ _) eqn:B; cbn [rbind]; try discriminate. intros V. injection V as <- <-.
    apply put_length in B. apply put_or_length in A. congruence.
  - destruct (put_or _ _ _) eqn:A; cbn [rbind]; try discriminate. intros V. injection V as <- <-. eapply put_or_length; exact A.
Qed.
Lemma loop_length sc p : forall rem i j out c i' j' out', b64_loop sc p rem i j out = Val (c, i', j', out') -> blen out' = blen out.
Proof.
  induction p as [|c p IH]; intros rem i j out c' i' j' out'; cbn [b64_loop]; [discriminate|]. destruct (Byte.eqb c NUL); [intros V; injection V as _ _ _ <-; reflexivity|].
  destruct (rem =? 0); [intros V; injection V as _ _ _ <-; reflexivity|]. destruct (Byte.eqb c EQ).
  - destruct p as [|d p']; [discriminate|]. destruct (_ && _); [discriminate|]. apply IH.
  - destruct (b64_lookup sc c) as [v| |]; cbn [rbind]; try discriminate. destruct (Z.eqb v (-1)); [apply IH|]. destruct (Z.eqb v (-2)); [discriminate|].
    destruct (b64_store i j (Z.to_N v) out) as [(j1 & o1)| |] eqn:S; cbn [rbind fst snd]; try discriminate. intros V. apply IH in V. apply store_length in S. congruence.
Qed.
Lemma left_length sc p : forall rem i j out, blen (b64_left sc p rem i j out) = blen out.
Proof.
  induction p as [|c p IH]; intros rem i j out; cbn [b64_left]; [reflexivity|]. destruct (_ || _); [reflexivity|]. destruct (Byte.eqb c EQ).
  - destruct p as [|d p']; [reflexivity|]. destruct (_ && _); [reflexivity|]. apply IH.
  - destruct (b64_lookup sc c) as [v| |]; [|reflexivity|reflexivity]. destruct (Z.eqb v (-1)); [apply IH|]. destruct (Z.eqb v (-2)); [reflexivity|].
    destruct (b64_store i j (Z.to_N v) out) as [(j1 & o1)| |] eqn:S; [|reflexivity|reflexivity]. cbn [fst snd]. rewrite IH. eapply store_length; exact S.
Qed.
Lemma mop_length c i j out out' : b64_mop c i j out = Val out' -> blen out' = blen out.
Proof.
  unfold b64_mop. destruct (Byte.eqb c EQ); [|intros V; injection V as <-; reflexivity].
  destruct (Nat.modulo i 4) as [|[|[|[|k]]]]; try discriminate; try apply put_length; intros V; injection V as <-; reflexivity.
Qed.
Lemma strlen_null m : strlen m <> Null.
Proof. induction m as [|c m IH]; cbn [strlen]; [discriminate|]. destruct (Byte.eqb c NUL); [discriminate|]. destruct (strlen m); congruence. Qed.
Lemma memwrite_null d s x n : memwrite d s x n <> Null.
Proof. unfold memwrite, memread. destruct (_ <=? blen x); cbn [rbind]; [|discriminate]. destruct (_ <=? _); discriminate. Qed.
Lemma hex_loop_null : forall p, hex_loop p <> Null.
Proof.
  fix IH 1. intros [|a [|b p]]; cbn [hex_loop]; try discriminate.
  - destruct (Byte.eqb a NUL); discriminate.
  - destruct (Byte.eqb a NUL); [discriminate|]. destruct (Byte.eqb b NUL); [discriminate|]. specialize (IH p). destruct (hex_loop p); cbn [rbind]; congruence.
Qed.
Lemma put_null m i v : put m i v <> Null.
Proof. unfold put. destruct (Nat.ltb _ _); discriminate. Qed.

(* ---- the functions ---- *)
Ltac crash := apply wp_ub; match goal with HB : _ = UB -> ?U |- ?U => apply HB end.
Ltac got := match goal with QS : forall t h1, ext _ _ _ _ h1 -> _ -> ?Q (Some t) h1, E : ext _ _ _ _ ?h |- ?Q (Some _) ?h =>
  apply QS; [try unfold text_cells; cbn [t_buf]; eapply ext_perm; [|exact E]; solve_perm|] end.

Lemma base32_encode_rule b : op_rule buf_cells b_bytes [oc buf_cells b] (base32_encode (option_map b_bytes b)) [] [] [] never_leaks_op (h_base32_encode b).
Proof.
  start_op. unfold h_base32_encode, base32_encode, buffer_create_empty_zero in *. destruct b as [b|]; [|wstep; gone; left; reflexivity]. cbn [option_map oc] in *.
  rewrite zeros_new in *. args. rd. wstep. new_buffer.
  - wstep. gone. left. rewrite N. reflexivity.
  - wstep. gone. right. sfailed.
  - rewrite Z, B in *. cbn [lift rbind] in *. destruct (b32_code _ _ _ _ _) as [enc| |] eqn:CE; cbn [rbind] in *.
    + destruct (b32_encode_map enc) as [t|] eqn:EM; cbn [lift] in *.
      * wstep. fill b0. { rewrite (map_length _ _ EM), (code_length _ _ _ _ _ _ CE), B. reflexivity. } wstep. there. reflexivity.
      * rel b0. { eapply keeps_zeros; eassumption. } out. left. reflexivity.
    + rel b0. { eapply keeps_zeros; eassumption. } out. left. reflexivity.
    + crash. reflexivity.
Qed.

Lemma base32_decode_rule b : op_rule text_cells text_data [oc buf_cells b] (base32_decode (option_map b_bytes b)) (base32_decode_public (option_map b_bytes b)) [] [] never_leaks_op (h_base32_decode b).
Proof.
  start_op. unfold h_base32_decode, base32_decode, base32_decode_public, buffer_copy, buffer_create_empty_zero in *. destruct b as [b|]; [|wstep; gone; left; reflexivity]. cbn [option_map oc] in *.
  args. wstep. copy b.
  - wstep. gone. left. rewrite N. reflexivity.
  - wstep. gone. right. sfailed.
  - rewrite V in *. cbn [lift rbind] in *. wstep. fill b0; [apply part_length|]. rewrite B in *.
    set (un := {| b_addr := b_addr b0; b_data := b_data b0; b_bytes := unmapped_part (b_bytes b) |}) in *.
    destruct (b32_unmap (b_bytes b)) as [u|] eqn:EU; cbn [lift rbind] in *.
    2:{ rel un; [exact K|]. out. left. reflexivity. }
    cbv zeta in *. destruct (b32_decode_length (blen u) =? 0); [rel un; [exact K|]; out; left; reflexivity|].
    rewrite zeros_new in *. wstep. new_buffer.
    + rewrite N in *. rel un; [exact K|]. out. left. reflexivity.
    + rel un; [exact K|]. out. right. sfailed.
    + rewrite Z, B0 in *. cbn [lift rbind] in *. destruct (b32_code _ _ _ _ _) as [m| |] eqn:CE; cbn [rbind] in *.
      * wstep. fill b1. { rewrite (code_length _ _ _ _ _ _ CE), B0. reflexivity. } rel un; [exact K|]. wstep. got. reflexivity.
      * rel b1. { eapply keeps_zeros; eassumption. } rel un; [exact K|]. out. left. reflexivity.
      * crash. reflexivity.
Qed.
Lemma base64_encode_rule b : op_rule text_cells text_value [oc buf_cells b] (base64_encode fresh_memory (option_map b_bytes b)) [] [] [] never_leaks_op (h_base64_encode b).
Proof.
  start_op. unfold h_base64_encode, base64_encode, fresh_memory in *. destruct b as [b|]; [|wstep; gone; left; reflexivity]. cbn [option_map oc] in *.
  args. rd. destruct (blen (b_bytes b) =? 0); [wstep; gone; left; reflexivity|]. rewrite zeros_new in *. wstep. new_buffer.
  - wstep. gone. left. rewrite N. reflexivity.
  - wstep. gone. right. sfailed.
  - rewrite Z, B in *. cbn [lift rbind] in *. cbv zeta in *. destruct (memwrite _ _ _ _) as [m| |] eqn:MW; cbn [rbind] in *.
    + wstep. fill b0. { rewrite (memwrite_length _ _ _ _ _ MW), B. reflexivity. } destruct (strlen m) as [n| |] eqn:SL; cbn [rbind] in *.
      * wstep. got. reflexivity.
      * destruct (strlen_null _ SL).
      * crash. reflexivity.
    + destruct (memwrite_null _ _ _ _ MW).
    + crash. reflexivity.
Qed.
Lemma base64_decode_rule sc s : op_rule text_cells text_value [oc text_cells s] (base64_decode sc (option_map text_value s)) (base64_decode_public sc (option_map text_value s)) [] [] never_leaks_op
  (h_base64_decode sc s).
Proof.
  start_op. unfold h_base64_decode, base64_decode, base64_decode_public, buffer_create_empty_zero in *. destruct s as [s|]; [|wstep; gone; left; reflexivity]. cbn [option_map oc] in *.
  unfold text_cells in *. args. change (cb_mem (text_value s)) with (b_bytes (t_buf s)) in *. change (cb_len (text_value s)) with (t_len s) in *. rd.
  destruct (strlen (b_bytes (t_buf s))) as [n| |] eqn:SL; cbn [rbind] in *; [|destruct (strlen_null _ SL)|crash; reflexivity].
  cbv zeta in *. set (len := if t_len s <? n then t_len s else n) in *. rewrite zeros_new in *. wstep. new_buffer.
  - wstep. gone. left. rewrite N. reflexivity.
  - wstep. gone. right. sfailed.
  - rewrite Z, B in *. cbn [lift rbind] in *. destruct (b64_loop _ _ _ _ _ _) as [(((c & i) & j) & o)| |] eqn:BL; cbn [rbind] in *.
    + destruct (b64_mop c i j o) as [o'| |] eqn:BM; cbn [rbind] in *.
      * wstep. fill b. { rewrite (mop_length _ _ _ _ _ BM), (loop_length _ _ _ _ _ _ _ _ _ _ BL), B. reflexivity. } wstep. got. reflexivity.
      * wstep. fill b. { rewrite left_length, B. reflexivity. }
        rel {| b_addr := b_addr b; b_data := b_data b; b_bytes := b64_left sc (b_bytes (t_buf s)) len 0 0 (zeros (N.to_nat len)) |}; [exact K|]. out. left. reflexivity.
      * crash. reflexivity.
    + wstep. fill b. { rewrite left_length, B. reflexivity. }
      rel {| b_addr := b_addr b; b_data := b_data b; b_bytes := b64_left sc (b_bytes (t_buf s)) len 0 0 (zeros (N.to_nat len)) |}; [exact K|]. out. left. reflexivity.
    + crash. reflexivity.
Qed.
Lemma hex_encode_rule b : op_rule text_cells text_value [oc buf_cells b] (hex_encode fresh_memory (option_map b_bytes b)) [] [] [] never_leaks_op (h_hex_encode b).
Proof.
  start_op. unfold h_hex_encode, hex_encode, fresh_memory in *. destruct b as [b|]; [|wstep; gone; left; reflexivity]. cbn [option_map oc] in *.
  args. rd. rewrite zeros_new in *. wstep. new_buffer.
  - wstep. gone. left. rewrite N. reflexivity.
  - wstep. gone. right. sfailed.
  - rewrite Z, B in *. cbn [lift rbind] in *. cbv zeta in *. destruct (memwrite _ _ _ _) as [m| |] eqn:MW; cbn [rbind] in *.
    + wstep. fill b0. { rewrite (memwrite_length _ _ _ _ _ MW), B. reflexivity. } wstep. got. reflexivity.
    + destruct (memwrite_null _ _ _ _ MW).
    + crash. reflexivity.
Qed.
Lemma hex_decode_rule s : op_rule buf_cells b_bytes [oc text_cells s] (hex_decode fresh_memory (option_map text_value s)) [] [] [] never_leaks_op (h_hex_decode s).
Proof.
  start_op. unfold h_hex_decode, hex_decode, fresh_memory in *. destruct s as [s|]; [|wstep; gone; left; reflexivity]. cbn [option_map oc] in *.
  unfold text_cells in *. args. change (cb_mem (text_value s)) with (b_bytes (t_buf s)) in *. rd.
  destruct (strlen (b_bytes (t_buf s))) as [n| |] eqn:SL; cbn [rbind] in *; [|destruct (strlen_null _ SL)|crash; reflexivity].
  rewrite zeros_new in *. wstep. new_buffer.
  - wstep. gone. left. rewrite N. reflexivity.
  - wstep. gone. right. sfailed.
  - rewrite Z, B in *. cbn [lift rbind] in *. destruct (hex_loop _) as [w| |] eqn:HL; cbn [rbind] in *; [|destruct (hex_loop_null _ HL)|crash; reflexivity].
    destruct (memwrite _ _ _ _) as [m| |] eqn:MW; [|destruct (memwrite_null _ _ _ _ MW)|crash; reflexivity].
    wstep. fill b. { rewrite (memwrite_length _ _ _ _ _ MW), B. reflexivity. } wstep. there. reflexivity.
Qed.

(* ---- fingerprints: which allocations matter ---- *)
Lemma base32_text_wp b secret (U W : Prop) fails h0 X h (Q : option htext -> heap -> Prop) :
  (base32_encode (Some (b_bytes b)) = UB -> U) -> ext secret W h0 X h -> in_memory h0 (buf_cells b) -> keeps_secret secret [] ->
  (forall h1, ext secret W h0 X h1 -> base32_encode (Some (b_bytes b)) = Null \/ buffer_fails fails -> Q None h1) ->
  (forall t h1, ext secret W h0 (text_cells t ++ X) h1 -> text_value t = cbuf_of (b_bytes (t_buf t)) -> base32_encode (Some (b_bytes b)) = Val (b_bytes (t_buf t)) -> Q (Some t) h1) ->
  wp U fails (h_as_text (h_base32_encode (Some b))) h Q.
Proof.
  intros HB E M K0 QN QS. unfold h_as_text, h_base32_encode, base32_encode, buffer_create_empty_zero in *.
  rewrite zeros_new in *. wstep. rd. wstep. new_buffer.
  - repeat wstep. cbn [option_map]. gone. left. rewrite N. reflexivity.
  - repeat wstep. cbn [option_map]. gone. right. exact F.
  - rewrite Z, B in *. cbn [lift rbind] in *. destruct (b32_code _ _ _ _ _) as [enc| |] eqn:CE; cbn [rbind] in *.
    + destruct (b32_encode_map enc) as [t|] eqn:EM; cbn [lift] in *.
      * wstep. fill b0. { rewrite (map_length _ _ EM), (code_length _ _ _ _ _ _ CE), B. reflexivity. } repeat wstep. cbn [option_map].
        match goal with E9 : ext _ _ _ _ ?h9 |- Q _ ?h9 => apply (QS {| t_buf := _; t_len := _ |} h9); [exact E9|reflexivity|reflexivity] end.
      * rel b0. { eapply keeps_zeros; eassumption. } repeat wstep. cbn [option_map]. gone. left. reflexivity.
    + rel b0. { eapply keeps_zeros; eassumption. } repeat wstep. cbn [option_map]. gone. left. reflexivity.
    + crash. reflexivity.
Qed.
Lemma hex_text_wp b secret (U W : Prop) fails h0 X h (Q : option htext -> heap -> Prop) :
  (hex_encode fresh_memory (Some (b_bytes b)) = UB -> U) -> ext secret W h0 X h -> in_memory h0 (buf_cells b) -> keeps_secret secret [] ->
  (forall h1, ext secret W h0 X h1 -> hex_encode fresh_memory (Some (b_bytes b)) = Null \/ buffer_fails fails -> Q None h1) ->
  (forall t h1, ext secret W h0 (text_cells t ++ X) h1 -> hex_encode fresh_memory (Some (b_bytes b)) = Val (text_value t) -> Q (Some t) h1) ->
  wp U fails (h_hex_encode (Some b)) h Q.
Proof.
  intros HB E M K0 QN QS. unfold h_hex_encode, hex_encode, fresh_memory in *. rd. rewrite zeros_new in *. wstep. new_buffer.
  - repeat wstep. gone. left. rewrite N. reflexivity.
  - repeat wstep. gone. right. exact F.
  - rewrite Z, B in *. cbn [lift rbind] in *. cbv zeta in *. destruct (memwrite _ _ _ _) as [m| |] eqn:MW; cbn [rbind] in *.
    + wstep. fill b0. { rewrite (memwrite_length _ _ _ _ _ MW), B. reflexivity. } wstep. got. reflexivity.
    + destruct (memwrite_null _ _ _ _ MW).
    + crash. reflexivity.
Qed.
Ltac short_used := match goal with HU : forall n ty, _ -> _ n ty = true -> ?U |- _ => apply wp_ub; bused end.
Lemma fingerprint_b32_rule f mode : op_rule text_cells text_value [oc fp_cells f] (fingerprint_get_b32 (option_map fp_value f) mode) [] [] (short_kinds mode) never_leaks_op (h_fingerprint_get_b32 f mode).
Proof.
  start_op. unfold h_fingerprint_get_b32, h_fingerprint_encode_for_output_mode, fingerprint_get_b32, short_kinds in *.
  destruct f as [f|]; [|wstep; gone; left; reflexivity]. cbn [option_map oc] in *. args. inner f fp_cells. change (fp_data (fp_value f)) with (b_bytes (hfp_data f)) in *.
  wstep. wstep. wstep. eapply base32_text_wp; [|eassumption|eassumption|exact K0| |].
  - intros Z. apply HB. rewrite Z. reflexivity.
  - intros h1 E1 G. clear E. destruct mode.
    + destruct G as [G|G]; [|short_used]. apply wp_ub. apply HB. rewrite G. reflexivity.
    + wstep. gone. destruct G as [G|G]; [left; rewrite G; reflexivity|right; sfailed].
  - intros t h1 E1 TV G. clear E. rewrite G in *. cbn [rbind] in *. unfold text_value in TV. injection TV as TL. unfold text_cells in E1. destruct mode.
    + rewrite TL in *. cbv zeta in *. destruct (put _ _ _) as [m| |] eqn:PM; cbn [rbind] in *; [|destruct (put_null _ _ _ PM)|crash; reflexivity].
      wstep. fill (t_buf t). { exact (put_length _ _ _ _ PM). } wstep. got. reflexivity.
    + wstep. got. unfold text_value. rewrite TL. reflexivity.
Qed.
Lemma fingerprint_hex_rule f mode : op_rule text_cells text_value [oc fp_cells f] (fingerprint_get_hex fresh_memory (option_map fp_value f) mode) [] [] (short_kinds mode) never_leaks_op (h_fingerprint_get_hex f mode).
Proof.
  start_op. unfold h_fingerprint_get_hex, h_fingerprint_encode_for_output_mode, fingerprint_get_hex, short_kinds in *.
  destruct f as [f|]; [|wstep; gone; left; reflexivity]. cbn [option_map oc] in *. args. inner f fp_cells. change (fp_data (fp_value f)) with (b_bytes (hfp_data f)) in *.
  wstep. wstep. wstep. eapply hex_text_wp; [|eassumption|eassumption|exact K0| |].
  - intros Z. apply HB. rewrite Z. reflexivity.
  - intros h1 E1 G. clear E. destruct mode.
    + destruct G as [G|G]; [|short_used]. apply wp_ub. apply HB. rewrite G. reflexivity.
    + wstep. gone. destruct G as [G|G]; [left; rewrite G; reflexivity|right; sfailed].
  - intros t h1 E1 G. clear E. rewrite G in *. cbn [rbind] in *. unfold text_cells in E1. destruct mode.
    + change (cb_mem (text_value t)) with (b_bytes (t_buf t)) in *. change (cb_len (text_value t)) with (t_len t) in *. cbv zeta in *.
      destruct (put _ _ _) as [m| |] eqn:PM; cbn [rbind] in *; [|destruct (put_null _ _ _ PM)|crash; reflexivity].
      wstep. fill (t_buf t). { exact (put_length _ _ _ _ PM). } wstep. got. reflexivity.
    + wstep. got. reflexivity.
Qed.
