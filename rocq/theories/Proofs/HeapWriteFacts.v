(* Rules for the functions of Model/HeapWrite.v. *)
From Verif.Base Require Import Bytes Monad.
From Verif.Model Require Import Buffer Proto Cipher Ecdsa Kdf Prims Engine Identity Node Stream TransportPacket EcdhCipher Handshake Transport Keys Payload Exchange Packet Ctx Heap HeapObjects HeapMessages HeapParse HeapWrite.
From Verif.Spec Require Import HeapSpec HeapObjectSpec BufferSpec CopySpec CodecSpec HeapParseSpec HeapWriteSpec.
From Verif.Proofs Require Import BufferFacts HeapFacts HeapObjectFacts HeapMessageFacts HeapTransportFacts HeapCtxFacts HeapParseFacts CodecFacts.
From Coq Require Import Permutation ZifyBool ZifyNat ZifyN.
Local Open Scope N_scope.

(* an allocation of one of the kinds the writers make has failed *)
Definition memory_fails (fails : schedule) : Prop := exists n ty, In ty [T_proto; T_buffer; T_data] /\ fails n ty = true.
Lemma memory_fails_some fails : memory_fails fails -> some_failure fails.
Proof. intros (n & ty & _ & F). exists n, ty. exact F. Qed.
Lemma memory_fails_of fails ty : In ty [T_proto; T_buffer; T_data] -> (exists n, fails n ty = true) -> memory_fails fails.
Proof. intros I (n & F). exists n, ty. split; assumption. Qed.
Ltac mfailed := first [assumption|match goal with F : exists n, ?fails n ?ty = true |- memory_fails ?fails => apply (memory_fails_of fails ty); [cbn; tauto|exact F] end].

Definition write_rule {T V} (cells : T -> list cell) (value : T -> V) (pure : V -> res bytes) (wrong : V -> bytes -> Prop)
  (public : V -> list bytes) (untested : list ctype) (leaky : bool) (write : option T -> H (option hbuf)) : Prop :=
  forall secret (U W : Prop) fails h0 X h t (Q : option hbuf -> heap -> Prop),
    (forall n ty, In ty untested -> fails n ty = true -> U) -> (pure (value t) = UB -> U) -> (leaky = true -> memory_fails fails -> W) ->
    ext secret W h0 X h -> in_memory h0 (cells t) -> keeps_secret secret (public (value t)) ->
    (forall h1, ext secret W h0 X h1 -> pure (value t) = Null \/ memory_fails fails -> Q None h1) ->
    (forall b h1, ext secret W h0 (buf_cells b ++ X) h1 ->
       pure (value t) = Val (b_bytes b) \/ memory_fails fails /\ wrong (value t) (b_bytes b) -> Q (Some b) h1) ->
    wp U fails (write (Some t)) h Q.
Class Writes {T V} (write : option T -> H (option hbuf)) (cells : T -> list cell) (value : T -> V) (pure : V -> res bytes) (wrong : V -> bytes -> Prop)
  (public : V -> list bytes) (untested : list ctype) (leaky : bool) : Prop :=
  write_has : write_rule cells value pure wrong public untested leaky write.

Lemma write_sound {T V} (cells : T -> list cell) (value : T -> V) pure wrong public untested leaky write :
  write_rule cells value pure wrong public untested leaky write -> writes_in_memory cells value pure wrong public untested leaky write.
Proof.
  intros R secret fails h t OK M K.
  pose (W := leaky = true /\ some_failure fails).
  pose (U := pure (value t) = UB \/ exists n ty, In ty untested /\ fails n ty = true).
  pose (Q := fun (o : option hbuf) h' => match o with
     | None => exists leaked, (leaked = [] \/ W) /\ grown h leaked h' /\ wiped secret h h' /\ (pure (value t) = Null \/ some_failure fails)
     | Some b => exists leaked, (leaked = [] \/ W) /\ grown h (leaked ++ buf_cells b) h' /\ wiped secret h h' /\
          (pure (value t) = Val (b_bytes b) \/ some_failure fails /\ wrong (value t) (b_bytes b))
     end).
  assert (G : wp U fails (write (Some t)) h Q).
  { eapply R with (W := W).
    - intros n ty I F. right. exists n, ty. split; assumption.
    - intros F. left. exact F.
    - intros L F. split; [exact L|apply memory_fails_some; exact F].
    - apply ext_start. exact OK.
    - exact M.
    - exact K.
    - intros h1 (L & A & E) F. rewrite app_nil_r in E. destruct (ext0_grown _ _ _ _ E) as (G & B). exists L. repeat (split; [assumption|]).
      destruct F as [F|F]; [left; exact F|right; apply memory_fails_some; exact F].
    - intros b h1 (L & A & E) F. rewrite app_nil_r in E. destruct (ext0_grown _ _ _ _ E) as (G & B). exists L. repeat (split; [assumption|]).
      destruct F as [F|(F & F2)]; [left; exact F|right; split; [apply memory_fails_some; exact F|exact F2]]. }
  unfold wp in G. destruct (write (Some t) fails h) as [[[b|] h']|]; exact G.
Qed.
Lemma write_clean {T V} (cells : T -> list cell) (value : T -> V) pure wrong public untested leaky write :
  writes_in_memory cells value pure wrong public untested leaky write -> writes_cleanly cells value pure public write.
Proof.
  intros R secret h t OK M K. specialize (R secret never h t OK M K).
  assert (NF : ~ some_failure never) by (intros (n & ty & F); discriminate F).
  destruct (write (Some t) never h) as [[[b|] h']|].
  - destruct R as (L & [->|(_ & F)] & G & B & VV); [|contradiction]. destruct VV as [VV|(F & _)]; [|contradiction]. rewrite VV.
    exists b, h'. repeat split; assumption || apply G.
  - destruct R as (L & [->|(_ & F)] & G & B & VV); [|contradiction]. destruct VV as [VV|F]; [|contradiction]. rewrite VV.
    exists h'. split; [reflexivity|]. split; [|exact B]. split; [exact (proj1 G)|]. intros x. apply (proj2 (proj2 (proj2 G))). intros [].
  - destruct R as [R|(n & ty & _ & F)]; [|discriminate F]. rewrite R. reflexivity.
Qed.
Lemma write_strict {T V} (cells : T -> list cell) (value : T -> V) pure public write :
  null_is_null write -> writes_in_memory cells value pure never_wrong public [] false write -> (forall v, pure v <> UB) ->
  writes_safely cells value pure public write.
Proof.
  intros HN R NU. split; [exact HN|]. intros secret fails h t OK M K. specialize (R secret fails h t OK M K).
  destruct (write (Some t) fails h) as [[[b|] h']|].
  - destruct R as (L & [->|(F & _)] & G & B & VV); [|discriminate F]. destruct VV as [VV|(_ & [])]. repeat split; assumption || apply G.
  - destruct R as (L & [->|(F & _)] & G & B & VV); [|discriminate F]. split; [|split; assumption]. split; [exact (proj1 G)|].
    intros x. apply (proj2 (proj2 (proj2 G))). intros [].
  - destruct R as [R|(n & ty & [] & _)]. exact (NU _ R).
Qed.
Lemma write_wipe {T V} (cells : T -> list cell) (value : T -> V) pure wrong public untested leaky write :
  writes_in_memory cells value pure wrong public untested leaky write -> write_wipes cells value public write.
Proof.
  intros R secret fails h t r h' OK M K G. specialize (R secret fails h t OK M K). rewrite G in R.
  destruct r as [b|]; destruct R as (L & _ & _ & B & _); exact B.
Qed.

(* ---- making buffers ---- *)
Lemma buffer_new_wp secret (U W : Prop) fails h0 X h len (Q : option hbuf -> heap -> Prop) :
  ext secret W h0 X h -> keeps_secret secret [] ->
  (forall h1, ext secret W h0 X h1 -> size_ok len = false \/ memory_fails fails -> Q None h1) ->
  (forall b h1, ext secret W h0 (buf_cells b ++ X) h1 -> b_bytes b = zeros (N.to_nat len) -> size_ok len = true -> Q (Some b) h1) ->
  wp U fails (h_buffer_create_empty len) h Q.
Proof.
  intros E K QN QS. unfold h_buffer_create_empty. destruct (size_ok len) eqn:Z; unfold size_ok in Z.
  - replace ((MAX_BUFFER_SIZE <? len) || (len =? 0)) with false by lia.
    wstep. wstep.
    + wstep. apply QN; [assumption|right; mfailed].
    + wstep. at_heap ltac:(fun E => eapply wp_alloc; [exact E|intros h2 E2 F; clear E|intros d h2 E2; clear E]).
      * wstep. apply QN; [assumption|right; mfailed].
      * wstep. apply QS; [|reflexivity|reflexivity]. unfold buf_cells. cbn [b_addr b_data b_bytes]. eapply ext_perm; [|exact E2]. solve_perm.
  - replace ((MAX_BUFFER_SIZE <? len) || (len =? 0)) with true by lia. wstep. apply QN; [exact E|left; reflexivity].
Qed.
Lemma buffer_fill_wp secret (U W : Prop) fails h0 X h v (Q : option hbuf -> heap -> Prop) :
  ext secret W h0 X h -> keeps_secret secret [] ->
  (forall h1, ext secret W h0 X h1 -> buffer_create v = None \/ memory_fails fails -> Q None h1) ->
  (forall b h1, ext secret W h0 (buf_cells b ++ X) h1 -> buffer_create v = Some (b_bytes b) -> Q (Some b) h1) ->
  wp U fails (h_buffer_create v) h Q.
Proof.
  intros E K QN QS. unfold h_buffer_create. wstep. unfold buffer_create in *. eapply buffer_new_wp; [exact E|exact K| |].
  - intros h1 E1 F. wstep. apply QN; [exact E1|]. destruct F as [->|F]; [left; reflexivity|right; exact F].
  - intros [a d z] h1 E1 B Z. cbn [b_bytes b_addr b_data] in *. subst z. rewrite Z in QS. unfold buf_cells in E1. cbn [b_addr b_data b_bytes] in E1. norm E1.
    wstep. pull E1 (one_cell d (zeros (N.to_nat (blen v)))). eapply wp_store; [exact E1| |].
    + unfold zeros, blen. rewrite repeat_length. lia.
    + intros h2 E2. wstep. apply QS; [|reflexivity]. unfold buf_cells. cbn [b_addr b_data b_bytes]. eapply ext_perm; [|exact E2]. solve_perm.
Qed.
(* reading the bytes of a buffer of the object, or of one that was made *)
Lemma bytes_wp (U : Prop) fails h b (Q : bytes -> heap -> Prop) :
  mem h (b_addr b) = Some [] -> mem h (b_data b) = Some (b_bytes b) -> Q (b_bytes b) h -> wp U fails (h_bytes b) h Q.
Proof. intros M1 M2 G. unfold h_bytes. wstep. eapply wp_touch; [exact M1|]. eapply wp_load; [exact M2|]. exact G. Qed.
Lemma source_bytes secret W h0 X h b : ext secret W h0 X h -> in_memory h0 (buf_cells b) -> mem h (b_addr b) = Some [] /\ mem h (b_data b) = Some (b_bytes b).
Proof.
  intros E M. unfold buf_cells in M. apply in_memory_app in M. destruct M as (M1 & M2). apply in_memory_struct in M1.
  split; eapply ext_source; try exact E; [exact M1|]. apply (proj2 M2). left. reflexivity.
Qed.
Lemma new_bytes secret W h0 X h b : ext secret W h0 (buf_cells b ++ X) h -> mem h (b_addr b) = Some [] /\ mem h (b_data b) = Some (b_bytes b).
Proof.
  intros E. unfold buf_cells in E. norm E. split.
  - eapply ext_live. exact E.
  - pull E (one_cell (b_data b) (b_bytes b)). eapply ext_live. exact E.
Qed.
Lemma source_data h0 b : in_memory h0 (buf_cells b) -> exists c, mem h0 (b_data b) = Some c.
Proof. intros M. unfold buf_cells in M. apply in_memory_app in M. exists (b_bytes b). apply (proj2 (proj2 M)). left. reflexivity. Qed.
Lemma opt_cells_in {T} (cells : T -> list cell) h x : in_memory h (cells_opt cells (Some x)) -> in_memory h (cells x).
Proof. exact (fun M => M). Qed.

(* ---- tactics ---- *)
Ltac unpack_cells :=
  repeat (memory; match goal with
    | M : in_memory _ (buf_cells _) |- _ => fail
    | M : in_memory _ (cells_opt _ (Some _)) |- _ => apply opt_cells_in in M
    | M : in_memory _ (cells_opt _ None) |- _ => clear M
    end); memory.
Ltac wbytes :=
  lazymatch goal with
  | |- wp _ _ (h_bytes ?b) _ _ =>
      at_heap ltac:(fun E =>
        let B := fresh in
        first [match goal with M : in_memory _ (buf_cells b) |- _ => pose proof (source_bytes _ _ _ _ _ _ E M) as B end
              |pull E (buf_cells b); pose proof (new_bytes _ _ _ _ _ _ E) as B];
        eapply bytes_wp; [exact (proj1 B)|exact (proj2 B)|]; clear B)
  | |- wp _ _ (h_bytes_opt _) _ _ => unfold h_bytes_opt
  | |- wp _ _ (h_buffer_create _) _ _ =>
      at_heap ltac:(fun E => let E' := fresh "E" in let h := fresh "h" in let N := fresh "N" in let F := fresh "F" in let V := fresh "V" in
        eapply buffer_fill_wp; [exact E|pkept|intros h E' [N|F]; clear E|intros ? h E' V; clear E])
  | |- wp _ _ (h_concat _ _) _ _ => unfold h_concat
  | |- wp _ _ (h_concat_multi _) _ _ => unfold h_concat_multi
  end.
Lemma concat_again l b c : buffer_concat_multi l = Some b -> buffer_create b = c -> c = Some b.
Proof. unfold buffer_concat_multi, buffer_create. destruct (size_ok _) eqn:Z; [|discriminate]. intros V. apply Some_inj' in V. subst b. rewrite Z. congruence. Qed.
Lemma concat2_again x y b c : buffer_concat x y = Some b -> buffer_create b = c -> c = Some b.
Proof.
  unfold buffer_concat, buffer_create. destruct x; [|discriminate]. destruct y; [|discriminate]. destruct (size_ok _) eqn:Z; [|discriminate].
  intros V. apply Some_inj' in V. subst b. rewrite Z. congruence.
Qed.
Lemma concat_multi_wp secret (U W : Prop) fails h0 X h l (Q : option hbuf -> heap -> Prop) :
  ext secret W h0 X h -> keeps_secret secret [] ->
  (forall h1, ext secret W h0 X h1 -> buffer_concat_multi l = None \/ memory_fails fails -> Q None h1) ->
  (forall b h1, ext secret W h0 (buf_cells b ++ X) h1 -> buffer_concat_multi l = Some (b_bytes b) -> Q (Some b) h1) ->
  wp U fails (h_concat_multi l) h Q.
Proof.
  intros E K QN QS. unfold h_concat_multi. apply wp_step; [intros V; destruct (lift_ub _ V)| |].
  - intros V. apply lift_null in V. apply QN; [exact E|left; exact V].
  - intros c V. apply lift_val in V. eapply buffer_fill_wp; [exact E|exact K| |].
    + intros h1 E1 [F|F]; [discriminate (concat_again _ _ _ V F)|apply QN; [exact E1|right; exact F]].
    + intros b h1 E1 F. pose proof (concat_again _ _ _ V F) as G. rewrite V in QS. apply QS; [exact E1|symmetry; exact G].
Qed.
Lemma concat_wp secret (U W : Prop) fails h0 X h x y (Q : option hbuf -> heap -> Prop) :
  ext secret W h0 X h -> keeps_secret secret [] ->
  (forall h1, ext secret W h0 X h1 -> buffer_concat x y = None \/ memory_fails fails -> Q None h1) ->
  (forall b h1, ext secret W h0 (buf_cells b ++ X) h1 -> buffer_concat x y = Some (b_bytes b) -> Q (Some b) h1) ->
  wp U fails (h_concat x y) h Q.
Proof.
  intros E K QN QS. unfold h_concat. apply wp_step; [intros V; destruct (lift_ub _ V)| |].
  - intros V. apply lift_null in V. apply QN; [exact E|left; exact V].
  - intros c V. apply lift_val in V. eapply buffer_fill_wp; [exact E|exact K| |].
    + intros h1 E1 [F|F]; [discriminate (concat2_again _ _ _ _ V F)|apply QN; [exact E1|right; exact F]].
    + intros b h1 E1 F. pose proof (concat2_again _ _ _ _ V F) as G. rewrite V in QS. apply QS; [exact E1|symmetry; exact G].
Qed.
Ltac start_write cells := intros secret U W fails h0 X h t Q HU HB HW E M K QN QS; unfold cells in M; memory.
Ltac wbytes ::=
  lazymatch goal with
  | |- wp _ _ (h_bytes ?b) _ _ =>
      at_heap ltac:(fun E =>
        let B := fresh in
        first [match goal with M : in_memory _ (buf_cells b) |- _ => pose proof (source_bytes _ _ _ _ _ _ E M) as B end
              |pull E (buf_cells b); pose proof (new_bytes _ _ _ _ _ _ E) as B];
        eapply bytes_wp; [exact (proj1 B)|exact (proj2 B)|]; clear B)
  | |- wp _ _ (h_bytes_opt None) _ _ => apply wp_ret
  | |- wp _ _ (h_bytes_opt (Some _)) _ _ => unfold h_bytes_opt
  | |- wp _ _ (h_buffer_create _) _ _ =>
      at_heap ltac:(fun E => let E' := fresh "E" in let h := fresh "h" in let N := fresh "N" in let F := fresh "F" in let V := fresh "V" in
        eapply buffer_fill_wp; [exact E|pkept|intros h E' [N|F]; clear E|intros ? h E' V; clear E])
  | |- wp _ _ (h_concat _ _) _ _ =>
      at_heap ltac:(fun E => let E' := fresh "E" in let h := fresh "h" in let N := fresh "N" in let F := fresh "F" in let V := fresh "V" in
        eapply concat_wp; [exact E|pkept|intros h E' [N|F]; clear E|intros ? h E' V; clear E])
  | |- wp _ _ (h_concat_multi _) _ _ =>
      at_heap ltac:(fun E => let E' := fresh "E" in let h := fresh "h" in let N := fresh "N" in let F := fresh "F" in let V := fresh "V" in
        eapply concat_multi_wp; [exact E|pkept|intros h E' [N|F]; clear E|intros ? h E' V; clear E])
  end.
(* the answer of a function: [f] is the functional model *)
Ltac wpost f :=
  match goal with
  | QN : forall h1, ext _ _ _ _ h1 -> _ -> ?Q None h1, E : ext _ _ _ _ ?h |- ?Q None ?h =>
      apply QN; [exact E|first [right; mfailed|left; solve [agree f]]]
  | QS : forall t' h1, ext _ _ _ _ h1 -> _ -> ?Q (Some t') h1, E : ext _ _ _ _ ?h |- ?Q (Some ?t) ?h =>
      apply QS; [eapply ext_perm; [|exact E]; solve_perm|left; solve [agree f]]
  end.
Ltac wr f := repeat (wpost f || wstep || wbytes || wdestroy || untested_tac || (progress cbn) || branch).

#[export] Instance cipher_result_write : Writes h_cipher_result_serialize cr_cells cr_value (fun v => lift (cipher_result_serialize (Some v)))
  never_wrong nothing [] false.
Proof.
  start_write cr_cells. destruct t as [a c iv text tag]. unfold h_cipher_result_serialize. cbn [hcr_addr hcr_cipher hcr_iv hcr_text hcr_tag] in *.
  unfold cr_value in *. cbn [hcr_cipher hcr_iv hcr_text hcr_tag] in *. unfold cipher_result_serialize, cipher_result_is_valid in *. cbn [cr_cipher cr_iv cr_tag cr_text] in *.
  wstep. wstep. destruct text as [text|], tag as [tag|]; cbn [option_map cells_opt] in *; destruct (is_authenticated c); cbn [andb negb] in *.
  all: repeat first [wpost cipher_result_serialize|wstep|wbytes].
Qed.
#[export] Instance cipher_key_write : Writes h_cipher_key_serialize ck_cells ck_value (fun v => lift (cipher_key_serialize (Some v)))
  never_wrong nothing [] false.
Proof.
  start_write ck_cells. unfold h_cipher_key_serialize. unfold ck_value, cipher_key_serialize in *. cbn [ck_cipher ck_data] in *. 
  repeat first [wpost cipher_key_serialize|wstep|wbytes].
Qed.
#[export] Instance kdf_meta_write : Writes h_kdf_meta_serialize km_cells km_value (fun v => lift (kdf_meta_serialize (Some v)))
  never_wrong nothing [] false.
Proof.
  start_write km_cells. unfold h_kdf_meta_serialize. unfold km_value, kdf_meta_serialize in *. cbn [km_algo km_salt] in *. 
  wstep. wstep. destruct (hkm_salt t) as [s|]; cbn [option_map cells_opt] in *; destruct (kdf_kind_eqb _ _); cbn [andb] in *.
  all: repeat first [wpost kdf_meta_serialize|wstep|wbytes].
Qed.
(* signatures *)
Lemma sig_parts (s : ecdsa_result) p : buffer_concat_multi
    [Some [n2b (N.lor (N.shiftl (curve_id (es_curve s)) 4) (digest_id (es_digest s)))];
     Some [n2b (wsub64 (wsub64 (signature_size (es_curve s)) (blen (es_sig s))) ECDSA_HEADER_SIZE mod 256)]; p; Some (es_sig s)] <> None ->
  blen (es_sig s) < 2 ^ 63.
Proof.
  unfold buffer_concat_multi, buffer_create, size_ok. set (l := concat _). destruct ((0 <? blen l) && (blen l <=? MAX_BUFFER_SIZE)) eqn:Z; [|congruence].
  intros _. assert (blen (es_sig s) <= blen l).
  { subst l. cbn [map obytes concat app]. unfold blen. cbn [length]. rewrite app_nil_r, app_length. lia. }
  unfold MAX_BUFFER_SIZE in Z. lia.
Qed.
Lemma sig_written_143 s b : ecdsa_result_serialize (Some s) = Some b -> blen b = signature_size (es_curve s).
Proof.
  intros V. destruct (es_curve s) eqn:C. cbn [signature_size]. unfold blen. rewrite (sig_serialize_143 s b); [reflexivity| |exact V].
  unfold ecdsa_result_serialize in V. destruct (_ <? _); [discriminate V|]. cbv zeta in V. eapply sig_parts. rewrite V. discriminate.
Qed.
Lemma sig_short s : blen (es_sig s) < 2 ^ 63 -> (signature_size (es_curve s) <? wadd64 (blen (es_sig s)) ECDSA_HEADER_SIZE) = false ->
  exists b, ecdsa_result_serialize (Some s) = Some b.
Proof.
  intros L C. assert (S : blen (es_sig s) <= 141).
  { destruct (es_curve s). cbn [signature_size] in C. unfold wadd64, ECDSA_HEADER_SIZE in C. rewrite N.mod_small in C by (unfold two64; lia). lia. }
  destruct s as [c d sig]. cbn [es_sig es_curve] in *. destruct sig as [|x sig].
  - destruct c, d; vm_compute; eexists; reflexivity.
  - exists (sig_wire {| es_curve := c; es_digest := d; es_sig := x :: sig |}). apply sig_serialize_ok. unfold good_sig, blen in *. cbn [es_sig length] in *. lia.
Qed.
Definition sig_spoiled (s : ecdsa_result) (b : bytes) : Prop := b = unpadded s /\ size_ok (blen b) = true /\ exists c, ecdsa_result_serialize (Some s) = Some c.
(* the part of the function that allocates, of any header and padding *)
Definition sig_rest (meta : byte) (pad : N) (c : bytes) : H (option hbuf) :=
  hbind (h_buffer_create_empty pad) (fun z => hbind (h_bytes_opt z) (fun p =>
  hbind (h_concat_multi [Some [meta]; Some [n2b pad]; p; Some c]) (fun full => hbind (h_buffer_destroy z) (fun _ => hret full)))).
Lemma sig_rest_wp secret (U W : Prop) fails h0 X h meta pad c (Q : option hbuf -> heap -> Prop) :
  ext secret W h0 X h -> keeps_secret secret [] ->
  (forall h1, ext secret W h0 X h1 ->
     buffer_concat_multi [Some [meta]; Some [n2b pad]; if size_ok pad then Some (repeat x00 (N.to_nat pad)) else None; Some c] = None \/ memory_fails fails -> Q None h1) ->
  (forall b h1, ext secret W h0 (buf_cells b ++ X) h1 ->
     buffer_concat_multi [Some [meta]; Some [n2b pad]; if size_ok pad then Some (repeat x00 (N.to_nat pad)) else None; Some c] = Some (b_bytes b) \/
     memory_fails fails /\ buffer_concat_multi [Some [meta]; Some [n2b pad]; None; Some c] = Some (b_bytes b) -> Q (Some b) h1) ->
  wp U fails (sig_rest meta pad c) h Q.
Proof.
  intros E K QN QS. unfold sig_rest. wstep. eapply buffer_new_wp; [exact E|pkept| |].
  - intros h1 E1 F. wstep. wbytes. wstep. wbytes.
    + wstep. wdestroy. wstep. apply QN; [assumption|]. destruct F as [F|F]; [|right; exact F]. rewrite F. left. exact N.
    + wstep. wdestroy. wstep. apply QN; [assumption|right; mfailed].
    + wstep. wdestroy. wstep. apply QS; [assumption|]. destruct F as [F|F]; [left; rewrite F; exact V|right; split; assumption].
  - intros z h1 E1 B Z. rewrite Z in QN, QS.
    assert (KZ : keeps_secret secret [b_bytes z]) by (split; [exact (proj1 K)|intros x [<-|[]]; rewrite B; exact (proj1 K _)]).
    wstep. wbytes. wstep. wbytes. wstep. wstep. rewrite B. unfold zeros in *. wbytes; wstep.
    all: at_heap ltac:(fun E => pull E (buf_cells z); eapply (proj2 buffer_destroy_rule); [exact E|exact KZ|intros h3 E3; clear E]); wstep.
    + apply QN; [assumption|left; assumption].
    + apply QN; [assumption|right; assumption].
    + apply QS; [assumption|left; assumption].
Qed.
Lemma sig_pure (s : ecdsa_result) : (signature_size (es_curve s) <? wadd64 (blen (es_sig s)) ECDSA_HEADER_SIZE) = false ->
  let pad := wsub64 (wsub64 (signature_size (es_curve s)) (blen (es_sig s))) ECDSA_HEADER_SIZE mod 256 in
  ecdsa_result_serialize (Some s) = buffer_concat_multi [Some [n2b (N.lor (N.shiftl (curve_id (es_curve s)) 4) (digest_id (es_digest s)))]; Some [n2b pad];
    if size_ok pad then Some (repeat x00 (N.to_nat pad)) else None; Some (es_sig s)].
Proof.
  intros C pad. unfold ecdsa_result_serialize. rewrite C. cbv zeta. fold pad. rewrite <- (Nnat.N2Nat.id pad) at 2. rewrite repeat_zeros.
  rewrite Nnat.N2Nat.id. reflexivity.
Qed.
Lemma sig_unpadded (s : ecdsa_result) b :
  buffer_concat_multi [Some [n2b (N.lor (N.shiftl (curve_id (es_curve s)) 4) (digest_id (es_digest s)))];
    Some [n2b (wsub64 (wsub64 (signature_size (es_curve s)) (blen (es_sig s))) ECDSA_HEADER_SIZE mod 256)]; None; Some (es_sig s)] = Some b -> b = unpadded s.
Proof. unfold buffer_concat_multi, unpadded, ECDSA_HEADER_SIZE. intros V. apply buffer_create_same in V. cbn [map obytes concat app] in V. rewrite app_nil_r in V. exact V. Qed.
Lemma sig_write_eq s : h_ecdsa_result_serialize (Some s) = hbind (touch (hsig_addr s)) (fun _ => hbind (h_bytes (hsig_data s)) (fun c =>
  if signature_size (hsig_curve s) <? wadd64 (blen c) ECDSA_HEADER_SIZE then hret None
  else sig_rest (n2b (N.lor (N.shiftl (curve_id (hsig_curve s)) 4) (digest_id (hsig_digest s))))
         (wsub64 (wsub64 (signature_size (hsig_curve s)) (blen c)) ECDSA_HEADER_SIZE mod 256) c)).
Proof. reflexivity. Qed.
Lemma concat_ok l b : buffer_concat_multi l = Some b -> size_ok (blen b) = true.
Proof.
  unfold buffer_concat_multi, buffer_create. destruct (size_ok (blen (concat (map obytes l)))) eqn:Z; [|discriminate]. intros V. apply Some_inj' in V. subst b. exact Z.
Qed.
Lemma sig_made_ok s b (F : Prop) : lift (ecdsa_result_serialize (Some s)) = Val b \/ F /\ sig_spoiled s b -> In b (sig_written s) /\ size_ok (blen b) = true.
Proof.
  intros [V|(_ & -> & Z & _)]; [|split; [left; reflexivity|exact Z]]. apply lift_val in V. split; [right; rewrite V; left; reflexivity|].
  unfold ecdsa_result_serialize in V. destruct (_ <? _); [discriminate V|]. exact (concat_ok _ _ V).
Qed.
#[export] Instance ecdsa_result_write : Writes h_ecdsa_result_serialize sig_cells sig_value (fun v => lift (ecdsa_result_serialize (Some v)))
  sig_spoiled nothing [] false.
Proof.
  start_write sig_cells. rewrite sig_write_eq. wstep. wstep. wstep. wbytes.
  pose proof (sig_pure (sig_value t)) as PF. pose proof (sig_unpadded (sig_value t)) as UN. pose proof (sig_parts (sig_value t) None) as SP.
  pose proof (sig_short (sig_value t)) as SS. cbv zeta in PF. cbn [sig_value es_curve es_digest es_sig] in PF, UN, SP, SS.
  destruct (_ <? _) eqn:C.
  - wstep. apply QN; [exact E|left]. unfold ecdsa_result_serialize. cbn [sig_value es_curve es_digest es_sig]. rewrite C. reflexivity.
  - specialize (PF eq_refl). specialize (fun L => SS L eq_refl). eapply sig_rest_wp; [exact E|exact K| |].
    + intros h1 E1 F. apply QN; [exact E1|]. destruct F as [F|F]; [left|right; exact F]. rewrite PF, F. reflexivity.
    + intros b h1 E1 F. apply QS; [exact E1|]. destruct F as [F|(F & V)]; [left; rewrite PF, F; reflexivity|].
      right. split; [exact F|]. split; [exact (UN _ V)|]. split; [exact (concat_ok _ _ V)|]. apply SS, SP. rewrite V. discriminate.
Qed.

(* ---- messages ---- *)
Definition unsecret (secret : bytes -> Prop) (l : list cell) : Prop := Forall (fun c => ~ secret (snd c)) l.
Definition lasting (h0 : heap) (l : list block) : Prop := Forall (fun b => exists c, mem h0 b = Some c) l.
Definition build_rule {T V M} (cells : T -> list cell) (value : T -> V) (pure : V -> option M) (spoiled : V -> M -> M -> Prop)
  (public : V -> list bytes) (untested : list ctype) (leaky : bool) (build : T -> H (option (hproto M))) : Prop :=
  forall secret (U W : Prop) fails h0 X h t (Q : option (hproto M) -> heap -> Prop),
    (forall n ty, In ty untested -> fails n ty = true -> U) -> (leaky = true -> memory_fails fails -> W) ->
    ext secret W h0 X h -> in_memory h0 (cells t) -> keeps_secret secret (public (value t)) ->
    (forall h1, ext secret W h0 X h1 -> pure (value t) = None \/ memory_fails fails -> Q None h1) ->
    (forall p h1 m, ext secret W h0 (pr_own p ++ X) h1 -> unsecret secret (pr_own p) -> lasting h0 (pr_borrowed p) ->
       pure (value t) = Some m -> pr_msg p = m \/ memory_fails fails /\ spoiled (value t) m (pr_msg p) -> Q (Some p) h1) ->
    wp U fails (build t) h Q.
Class Builds {T V M} (build : T -> H (option (hproto M))) (cells : T -> list cell) (value : T -> V) (pure : V -> option M) (spoiled : V -> M -> M -> Prop)
  (public : V -> list bytes) (untested : list ctype) (leaky : bool) : Prop :=
  build_has : build_rule cells value pure spoiled public untested leaky build.

Lemma touch_all_wp (U : Prop) fails h l (Q : unit -> heap -> Prop) : lasting h l -> Q tt h -> wp U fails (h_touch_all l) h Q.
Proof.
  induction l as [|b l IH]; intros L G; cbn [h_touch_all]; [wstep; exact G|]. inversion L as [|? ? (c & M) L']; subst.
  wstep. eapply wp_touch; [exact M|]. apply IH; assumption.
Qed.
Lemma lasting_ext secret W h0 X h l : ext secret W h0 X h -> lasting h0 l -> lasting h l.
Proof. intros E L. eapply Forall_impl; [|exact L]. intros b (c & M). exists c. eapply ext_source; [exact E|exact M]. Qed.
Lemma own_live secret W h0 l X h : ext secret W h0 (l ++ X) h -> lasting h (map fst l).
Proof.
  intros (L & _ & (_ & _ & C & _)). apply Forall_forall. intros b I. apply in_map_iff in I. destruct I as ((b' & c) & <- & I).
  exists c. apply (C b' c). apply in_or_app. right. apply in_or_app. left. exact I.
Qed.
Lemma cell_free_wp secret (U W : Prop) fails h0 d X h (Q : unit -> heap -> Prop) :
  ext secret W h0 ([d] ++ X) h -> ~ secret (snd d) -> (forall h1, ext secret W h0 X h1 -> Q tt h1) -> wp U fails (free (fst d)) h Q.
Proof. destruct d as [b c]. intros E N G. eapply wp_free; [exact E|exact N|exact G]. Qed.
Lemma cells_free_wp secret (U W : Prop) fails h0 l X h (Q : unit -> heap -> Prop) :
  ext secret W h0 (l ++ X) h -> unsecret secret l -> (forall h1, ext secret W h0 X h1 -> Q tt h1) -> wp U fails (h_free_all (map fst l)) h Q.
Proof.
  revert h. induction l as [|d l IH]; intros h E N G; cbn [map h_free_all]; [wstep; apply G; exact E|]. inversion N as [|? ? N1 N2]; subst.
  wstep. eapply cell_free_wp; [exact E|exact N1|]. intros h1 E1. eapply IH; [exact E1|exact N2|exact G].
Qed.
Lemma proto_free_wp {M} secret (U W : Prop) fails h0 (p : hproto M) X h (Q : unit -> heap -> Prop) :
  ext secret W h0 (pr_own p ++ X) h -> unsecret secret (pr_own p) -> (forall h1, ext secret W h0 X h1 -> Q tt h1) -> wp U fails (h_proto_free p) h Q.
Proof. exact (cells_free_wp _ _ _ _ _ _ _ _ _). Qed.
Lemma pack_wp {M} secret (U W : Prop) fails h0 X h (pack : M -> bytes) p (Q : option hbuf -> heap -> Prop) :
  ext secret W h0 (pr_own p ++ X) h -> keeps_secret secret [] -> unsecret secret (pr_own p) ->
  (forall b, In b (pr_borrowed p) -> (exists c, mem h0 b = Some c) \/ In b (map fst X)) ->
  (forall h1, ext secret W h0 X h1 -> pack_buffer (pack (pr_msg p)) = None \/ memory_fails fails -> Q None h1) ->
  (forall b h1, ext secret W h0 (buf_cells b ++ X) h1 -> pack_buffer (pack (pr_msg p)) = Some (b_bytes b) -> Q (Some b) h1) ->
  wp U fails (h_pack pack p) h Q.
Proof.
  intros E K N L QN QS. unfold h_pack. set (c := pack (pr_msg p)) in *. clearbody c.
  wstep. apply touch_all_wp; [eapply own_live; exact E|]. wstep. unfold pack_buffer, buffer_create in *. eapply buffer_new_wp; [exact E|exact K| |].
  - intros h1 E1 F. eapply proto_free_wp; [exact E1|exact N|]. intros h2 E2. apply QN; [exact E2|]. destruct F as [->|F]; [left; reflexivity|right; exact F].
  - intros [a d z] h1 E1 B Z. cbn [b_bytes b_addr b_data] in *. subst z. rewrite Z in QS. unfold buf_cells in E1. cbn [b_addr b_data b_bytes] in E1. norm E1.
    wstep. apply touch_all_wp.
    { apply Forall_forall. intros b I. destruct (L b I) as [(v & M0)|I2]; [exists v; eapply ext_source; [exact E1|exact M0]|].
      pull E1 X. pose proof (own_live _ _ _ _ _ _ E1) as O. unfold lasting in O. rewrite Forall_forall in O. exact (O b I2). }
    pull E1 (one_cell d (zeros (N.to_nat (blen c)))). wstep. eapply wp_store; [exact E1| |].
    + unfold zeros, blen. rewrite repeat_length. lia.
    + intros h2 E2. wstep. pull E2 (pr_own p). eapply proto_free_wp; [exact E2|exact N|]. intros h3 E3. wstep.
      apply QS; [|reflexivity]. unfold buf_cells. cbn [b_addr b_data b_bytes]. eapply ext_perm; [|exact E3]. solve_perm.
Qed.
Lemma protobytes_wp secret (U W : Prop) fails h0 X h b (Q : option cell -> heap -> Prop) :
  ext secret W h0 (buf_cells b ++ X) h -> size_ok (blen (b_bytes b)) = true ->
  (forall h1, ext secret W h0 (buf_cells b ++ X) h1 -> memory_fails fails -> Q None h1) ->
  (forall d h1, ext secret W h0 ([d] ++ buf_cells b ++ X) h1 -> snd d = b_bytes b -> Q (Some d) h1) ->
  wp U fails (h_to_protobytes b) h Q.
Proof.
  intros E Z QN QS. unfold h_to_protobytes. wstep. wbytes. unfold size_ok in Z. replace (blen (b_bytes b) =? 0) with false by lia.
  wstep. eapply wp_alloc; [exact E| |].
  - intros h1 E1 F. wstep. apply QN; [exact E1|mfailed].
  - intros d h1 E1. wstep. eapply wp_store; [exact E1| |].
    + unfold blen. rewrite repeat_length. reflexivity.
    + intros h2 E2. wstep. apply QS; [exact E2|reflexivity].
Qed.
Lemma created_ok v b : buffer_create v = Some b -> size_ok (blen b) = true.
Proof. unfold buffer_create. destruct (size_ok (blen v)) eqn:Z; [|discriminate]. intros V. apply Some_inj' in V. subst. exact Z. Qed.

Lemma write_of_build {T V M} (build : T -> H (option (hproto M))) (pack : M -> bytes) cells (value : T -> V) pure spoiled public untested leaky (pure_b : option V -> option bytes) :
  build_rule cells value pure spoiled public untested leaky build ->
  (forall v, pure_b (Some v) = match pure v with Some m => pack_buffer (pack m) | None => None end) ->
  write_rule cells value (fun v => lift (pure_b (Some v))) (packs_spoiled pure pack spoiled) public untested leaky (h_write build pack).
Proof.
  intros R P secret U W fails h0 X h t Q HU HB HW E M0 K QN QS. unfold h_write. rewrite P in QN, QS. wstep.
  eapply R with (W := W); [exact HU|exact HW|exact E|exact M0|exact K| |].
  - intros h1 E1 F. wstep. apply QN; [exact E1|]. destruct F as [->|F]; [left; reflexivity|right; exact F].
  - intros p h1 m E1 N L PM PV. rewrite PM in QN, QS. eapply pack_wp; [exact E1|refine (keeps_sub _ _ _ K _); intros x []|exact N| | |].
    + intros b I. left. unfold lasting in L. rewrite Forall_forall in L. exact (L b I).
    + intros h2 E2 F. apply QN; [exact E2|]. destruct F as [F|F]; [|right; exact F]. destruct PV as [<-|(F2 & _)]; [|right; exact F2]. left. rewrite F. reflexivity.
    + intros b h2 E2 F. apply QS; [exact E2|]. destruct PV as [<-|(F2 & PV)]; [left; rewrite F; reflexivity|]. right. split; [exact F2|].
      exists m, (pr_msg p). split; [exact PM|]. split; [exact PV|]. apply buffer_create_same in F. exact F.
Qed.
Ltac wwrite :=
  lazymatch goal with
  | |- wp _ _ (?f (Some ?t)) _ _ =>
      at_heap ltac:(fun E => let E' := fresh "E" in let h := fresh "h" in let N := fresh "N" in let F := fresh "F" in let V := fresh "V" in
        let R := constr:(write_has (write := f)) in
        lazymatch type of E with ext _ ?W _ _ _ =>
          eapply R with (W := W); [untested_tac|let C := fresh in intros C; destruct (lift_ub _ C)|let C := fresh in intros C; discriminate C
                                  |exact E|assumption|pkept|intros h E' [N|F]; clear E|let o := fresh "o" in intros o h E' V; clear E] end)
  end.
Lemma keeps_one secret public c : keeps_secret secret public -> In c public -> keeps_secret secret [c].
Proof. intros K I. refine (keeps_sub _ _ _ K _). intros x [<-|[]]. exact I. Qed.
Lemma keeps_none secret public : keeps_secret secret public -> keeps_secret secret [].
Proof. intros K. refine (keeps_sub _ _ _ K _). intros x []. Qed.
(* a signature of the object, in a block of the message *)
Ltac wdrop b KS :=
  at_heap ltac:(fun E => pull E (buf_cells b); let E' := fresh "E" in let h := fresh "h" in
    eapply (proj2 buffer_destroy_rule); [exact E|exact KS|intros h E'; clear E]).
Ltac own_tac := cbn [pr_own app]; repeat apply Forall_cons; try apply Forall_nil; cbn [snd]; try assumption.
Ltac own_ext L :=
  match goal with |- ext ?s ?W ?h0 (_ ++ ?X) ?h => change (ext s W h0 (L ++ X) h); match goal with E : ext _ _ _ _ h |- _ => eapply ext_perm; [|exact E]; solve_perm end end.
Ltac wproto b Z :=
  at_heap ltac:(fun E => pull E (buf_cells b); let E' := fresh "E" in let h := fresh "h" in let F := fresh "F" in let V := fresh "V" in
    eapply protobytes_wp; [exact E|exact Z|intros h E' F; clear E|intros ? h E' V; clear E]).
#[export] Instance identity_build is_private : Builds (h_identity_to_proto is_private) id_cells id_value (fun v => identity_build_proto v is_private)
  identity_spoiled id_written [] false.
Proof.
  intros secret U W fails h0 X h t Q HU HW E M K QN QS. unfold id_cells, key_cells in M. memory. unfold h_identity_to_proto.
  pose proof (keeps_none _ _ K) as K0. wstep. wstep; [wstep; apply QN; [assumption|right; mfailed]|]. wstep. wstep. wstep. wbytes. wstep. wstep.
  destruct t as [ad ty ident key sg]. unfold id_value, id_written in *. cbn [hid_addr hid_type hid_identifier hid_key hid_sig id_signature] in *.
  assert (B : forall sk, (if is_private then hkey_pri key else Some (hkey_pub key)) = Some sk -> in_memory h0 (buf_cells sk)).
  { intros sk S. destruct is_private; [|apply Some_inj' in S; subst; assumption]. rewrite S in *. assumption. }
  unfold identity_build_proto in *. cbn [id_key id_type id_identifier id_signature key_value ek_pri ek_pub] in *.
  destruct (if is_private then hkey_pri key else Some (hkey_pub key)) as [sk|] eqn:S.
  2:{ wstep. wstep. wstep. apply QN; [assumption|left]. destruct is_private; [rewrite S; reflexivity|discriminate S]. }
  specialize (B sk eq_refl).
  assert (S' : (if is_private then option_map b_bytes (hkey_pri key) else Some (b_bytes (hkey_pub key))) = Some (b_bytes sk)).
  { destruct is_private; [rewrite S; reflexivity|apply Some_inj' in S; subst; reflexivity]. }
  rewrite S' in *. wstep. wbytes.
  assert (LB : lasting h0 [b_data ident; b_data sk]) by (repeat apply Forall_cons; try apply Forall_nil; apply source_data; assumption).
  destruct ty.
  - wstep. eapply QS; [|own_tac|exact LB|reflexivity|left; reflexivity]; [exact E0|exact (proj1 K 0%nat)].
  - destruct sg as [sg|]; [|wstep; apply wp_ret; wstep; apply QN; [assumption|left; reflexivity]].
    cbn [option_map opt_plain cells_opt] in *. wstep. wwrite.
    + wstep. apply QN; [assumption|left]. apply lift_null in N. rewrite N. reflexivity.
    + wstep. apply QN; [assumption|right; assumption].
    + destruct (sig_made_ok _ _ _ V) as (I & Z). pose proof (keeps_one _ _ _ K I) as KS. wstep. wproto o Z.
      * wstep. wdrop o KS. wstep. apply QN; [assumption|right; assumption].
      * wstep. wdrop o KS. wstep.
        assert (G : exists c, ecdsa_result_serialize (Some (sig_value sg)) = Some c /\ (b_bytes o = c \/ memory_fails fails /\ b_bytes o = unpadded (sig_value sg))).
        { destruct V as [V|(F & V & _ & c & V2)]; [apply lift_val in V; exists (b_bytes o); split; [exact V|left; reflexivity]|exists c; split; [exact V2|right; split; assumption]]. }
        destruct G as (c & G1 & G2). rewrite G1 in QS. eapply QS; [|own_tac|exact LB|reflexivity|].
        -- own_ext ([d] ++ struct_cell b).
        -- rewrite V0. exact (proj2 K _ I).
        -- exact (proj1 K 0%nat).
        -- rewrite V0. cbn [pr_msg]. destruct G2 as [->|(F & ->)]; [left; reflexivity|right]. split; [exact F|]. exists (sig_value sg). split; reflexivity.
Qed.
Ltac in_parts I := first [exact I|apply in_or_app; left; in_parts I|apply in_or_app; right; in_parts I].
Ltac kept_part := match goal with K : keeps_secret ?s _ |- keeps_secret ?s _ =>
  first [exact K|refine (keeps_sub _ _ _ K _); let c := fresh in let I := fresh in intros c I; in_parts I] end.
Ltac wbuild :=
  lazymatch goal with
  | |- wp _ _ (?f ?t) _ _ =>
      at_heap ltac:(fun E => let E' := fresh "E" in let h := fresh "h" in let N := fresh "N" in let F := fresh "F" in let V := fresh "V" in
        let L := fresh "L" in let m := fresh "m" in let p := fresh "p" in let PM := fresh "PM" in
        let R := constr:(build_has (build := f)) in
        lazymatch type of E with ext _ ?W _ _ _ =>
          eapply R with (W := W); [untested_tac|first [solve [let C := fresh in intros C; discriminate C]|assumption]
                                  |exact E|assumption|kept_part|intros h E' [N|F]; clear E|intros p h m E' N L PM V; clear E] end)
  end.
Ltac wfree p :=
  at_heap ltac:(fun E => pull E (pr_own p); let E' := fresh "E" in let h := fresh "h" in
    eapply proto_free_wp; [exact E|assumption|intros h E'; clear E]).
Lemma unsecret_app secret a b : unsecret secret a -> unsecret secret b -> unsecret secret (a ++ b).
Proof. intros A B. apply Forall_app. split; assumption. Qed.
Lemma unsecret_struct secret public a : keeps_secret secret public -> unsecret secret (struct_cell a).
Proof. intros K. apply Forall_cons; [exact (proj1 K 0%nat)|apply Forall_nil]. Qed.
Lemma lasting_app h0 a b : lasting h0 a -> lasting h0 b -> lasting h0 (a ++ b).
Proof. intros A B. apply Forall_app. split; assumption. Qed.
Lemma or_same_of {M} (R : M -> M -> Prop) (F : Prop) m m' : m' = m \/ F /\ R m m' -> or_same R m m'.
Proof. intros [A|(_ & A)]; [left|right]; exact A. Qed.
#[export] Instance chain_build is_private : Builds (h_chain_to_proto is_private) ch_cells ch_value (fun v => chain_build_proto v is_private)
  chain_spoiled ch_written [] false.
Proof.
  intros secret U W fails h0 X h t Q HU HW E M K QN QS. unfold ch_cells in M. memory. unfold h_chain_to_proto. unfold chain_build_proto in QN, QS.
  change (ch_root (ch_value t)) with (id_value (hch_root t)) in *. change (ch_node (ch_value t)) with (id_value (hch_node t)) in *.
  wstep. wstep. wstep. wbuild.
  - wstep. apply QN; [assumption|left; rewrite N; reflexivity].
  - wstep. apply QN; [assumption|right; assumption].
  - rewrite PM in *. wstep. wbuild.
    + wfree p. apply QN; [assumption|left; rewrite N0; reflexivity].
    + wfree p. apply QN; [assumption|right; assumption].
    + rewrite PM0 in *. wstep. wstep.
      * wstep. wfree p. wfree p0. apply QN; [assumption|right; mfailed].
      * wstep. eapply QS; [own_ext (pr_own p0 ++ pr_own p ++ struct_cell b)| | |reflexivity|].
        -- cbn [pr_own]. repeat apply unsecret_app; try assumption. exact (unsecret_struct _ _ _ K).
        -- cbn [pr_borrowed]. apply lasting_app; assumption.
        -- cbn [pr_msg]. destruct V as [->|(F & V)]; [destruct V0 as [->|(F & V0)]|].
           ++ left. reflexivity.
           ++ right. split; [exact F|]. exists m, m0, m, (pr_msg p0). repeat split; [left; reflexivity|right; exact V0].
           ++ right. split; [exact F|]. exists m, m0, (pr_msg p), (pr_msg p0). repeat split; [right; exact V|exact (or_same_of _ _ _ _ V0)].
Qed.
#[export] Instance keypair_build : Builds h_keypair_to_proto kp_cells kp_value keypair_to_proto keypair_spoiled kp_written [] false.
Proof.
  intros secret U W fails h0 X h t Q HU HW E M K QN QS. unfold kp_cells, key_cells in M. memory. unfold h_keypair_to_proto.
  destruct t as [ad ident key sg]. unfold kp_value, kp_written in *. cbn [hkp_addr hkp_identifier hkp_key hkp_sig kp_signature] in *.
  unfold keypair_to_proto in *. cbn [kp_key kp_identifier kp_signature key_value ek_pub] in *.
  pose proof (keeps_none _ _ K) as K0. wstep. wstep. wstep. wstep; [wstep; apply QN; [assumption|right; mfailed]|]. wstep. wstep. wstep. wbytes.
  assert (LB : lasting h0 [b_data (hkey_pub key)]) by (repeat apply Forall_cons; try apply Forall_nil; apply source_data; assumption).
  destruct sg as [sg|]; cbn [option_map opt_plain cells_opt] in *.
  - wstep. wwrite.
    + wstep. apply QN; [assumption|left]. apply lift_null in N. rewrite N. reflexivity.
    + wstep. apply QN; [assumption|right; assumption].
    + destruct (sig_made_ok _ _ _ V) as (I & Z). pose proof (keeps_one _ _ _ K I) as KS. wstep. wproto o Z.
      * wstep. wdrop o KS. wstep. apply QN; [assumption|right; assumption].
      * wstep. wdrop o KS. wstep.
        assert (G : exists c, ecdsa_result_serialize (Some (sig_value sg)) = Some c /\ (b_bytes o = c \/ memory_fails fails /\ b_bytes o = unpadded (sig_value sg))).
        { destruct V as [V|(F & V & _ & c & V2)]; [apply lift_val in V; exists (b_bytes o); split; [exact V|left; reflexivity]|exists c; split; [exact V2|right; split; assumption]]. }
        destruct G as (c & G1 & G2). rewrite G1 in QS. eapply QS; [own_ext ([d] ++ struct_cell b)|own_tac|exact LB|reflexivity|].
        -- rewrite V0. exact (proj2 K _ I).
        -- exact (proj1 K 0%nat).
        -- rewrite V0. cbn [pr_msg]. destruct G2 as [->|(F & ->)]; [left; reflexivity|right]. split; [exact F|]. exists (sig_value sg). split; reflexivity.
  - wstep. eapply QS; [own_ext (struct_cell b)|own_tac|exact LB|reflexivity|left; reflexivity]. exact (proj1 K 0%nat).
Qed.
#[export] Instance node_build : Builds h_node_to_proto nd_cells nd_value node_to_proto node_spoiled nd_written [] true.
Proof.
  intros secret U W fails h0 X h t Q HU HW E M K QN QS. unfold nd_cells in M. memory. unfold h_node_to_proto. unfold node_to_proto in QN, QS.
  destruct t as [ad dev ch kp st ca]. unfold nd_written, nd_value in *. cbn [hnd_addr hnd_dev_id hnd_chain hnd_keypair hnd_cache hnd_status nd_chain nd_keypair nd_dev_id] in *.
  assert (LD : lasting h0 [b_data dev]) by (repeat apply Forall_cons; try apply Forall_nil; apply source_data; assumption).
  wstep. wstep. destruct kp as [kp|]; cbn [option_map opt_plain cells_opt] in *.
  - wstep. wbuild.
    + wstep. apply QN; [assumption|left; rewrite N; reflexivity].
    + wstep. apply QN; [assumption|right; assumption].
    + rewrite PM in *. cbv zeta. wstep. wbuild.
      * wfree p. apply QN; [assumption|left; rewrite N0; reflexivity].
      * wfree p. apply QN; [assumption|right; assumption].
      * rewrite PM0 in *. wstep. wstep.
        -- wfree p. apply QN; [|right; mfailed].
           match goal with E : ext _ _ _ (pr_own p0 ++ X) ?h |- ext _ _ _ _ ?h => eapply ext_leak; [|exact E] end. apply HW; [reflexivity|mfailed].
        -- wstep. wbytes. wstep. eapply QS; [own_ext (pr_own p0 ++ pr_own p ++ struct_cell b)| | |reflexivity|].
           ++ cbn [pr_own]. repeat apply unsecret_app; try assumption. exact (unsecret_struct _ _ _ K).
           ++ cbn [pr_borrowed]. apply Forall_cons; [inversion LD; assumption|apply lasting_app; assumption].
           ++ cbn [pr_msg option_map]. destruct V as [->|(F & V)]; [destruct V0 as [->|(F & V0)]|].
              ** left. reflexivity.
              ** right. split; [exact F|]. exists m0, (pr_msg p0). repeat split; [right; exact V0|left; reflexivity].
              ** right. split; [exact F|]. exists m0, (pr_msg p0). repeat split; [exact (or_same_of _ _ _ _ V0)|right].
                 exists (kp_value kp), m, (pr_msg p). repeat split. exact V.
  - wstep. wstep. cbv zeta. wstep. wbuild.
    + wstep. apply QN; [assumption|left; rewrite N; reflexivity].
    + wstep. apply QN; [assumption|right; assumption].
    + rewrite PM in *. wstep. wstep.
      * wstep. apply QN; [|right; mfailed].
        match goal with E : ext _ _ _ (pr_own p ++ X) ?h |- ext _ _ _ _ ?h => eapply ext_leak; [|exact E] end. apply HW; [reflexivity|mfailed].
      * wstep. wbytes. wstep. eapply QS; [own_ext (pr_own p ++ struct_cell b)| | |reflexivity|].
        -- cbn [pr_own]. repeat apply unsecret_app; try assumption; [apply Forall_nil|]. exact (unsecret_struct _ _ _ K).
        -- cbn [pr_borrowed]. apply Forall_cons; [inversion LD; assumption|apply lasting_app; [assumption|apply Forall_nil]].
        -- cbn [pr_msg option_map]. destruct V as [->|(F & V)]; [left; reflexivity|right]. split; [exact F|].
           exists m, (pr_msg p). repeat split; [right; exact V|left; reflexivity].
Qed.
(* keys *)
Lemma concat2_ok x y b : buffer_concat x y = Some b -> size_ok (blen b) = true.
Proof.
  unfold buffer_concat. destruct x as [x|]; [|discriminate]. destruct y as [y|]; [|discriminate]. apply created_ok.
Qed.
Lemma key_written_ok k b : cipher_key_serialize (Some k) = Some b -> size_ok (blen b) = true.
Proof. unfold cipher_key_serialize. exact (concat2_ok _ _ _). Qed.
Lemma key_protobytes_wp secret (U W : Prop) fails h0 X h k (Q : option cell -> heap -> Prop) :
  ext secret W h0 X h -> in_memory h0 (ck_cells k) -> keeps_secret secret [] ->
  (forall h1, ext secret W h0 X h1 -> cipher_key_serialize (Some (ck_value k)) = None \/ memory_fails fails -> Q None h1) ->
  (forall d h1, ext secret W h0 ([d] ++ X) h1 -> cipher_key_serialize (Some (ck_value k)) = Some (snd d) -> Q (Some d) h1) ->
  wp U fails (h_cipher_key_to_protobytes k) h Q.
Proof.
  intros E M K QN QS. unfold h_cipher_key_to_protobytes. assert (HU : forall n ty, In ty [] -> fails n ty = true -> U) by (intros n ty []).
  wstep. wwrite.
  - wstep. apply QN; [assumption|left; apply lift_null in N; exact N].
  - wstep. apply QN; [assumption|right; assumption].
  - destruct V as [V|(_ & [])]. apply lift_val in V. pose proof (key_written_ok _ _ V) as Z. wstep. wproto o Z.
    + wstep. wdestroy. wstep. apply QN; [assumption|right; assumption].
    + wstep. wdestroy. wstep. apply QS; [assumption|congruence].
Qed.
Ltac wkey :=
  at_heap ltac:(fun E => let E' := fresh "E" in let h := fresh "h" in let N := fresh "N" in let F := fresh "F" in let V := fresh "V" in let d := fresh "d" in
    eapply key_protobytes_wp; [exact E|assumption|eapply keeps_none; eassumption|intros h E' [N|F]; clear E|intros d h E' V; clear E]).
Ltac wcell d :=
  at_heap ltac:(fun E => pull E [d]; let E' := fresh "E" in let h := fresh "h" in
    eapply cell_free_wp; [exact E| |intros h E'; clear E]).
Lemma storage_pure l r : storage_keys_to_proto (Some {| sk_local := l; sk_remote := r |}) =
  match cipher_key_serialize (Some l), cipher_key_serialize (Some r) with
  | Some a, Some b => Some {| ps_version := CURRENT_STORAGE_KEY_VERSION; ps_local := Some a; ps_remote := Some b |}
  | _, _ => None
  end.
Proof. reflexivity. Qed.
Lemma storage_written l r : sk_written {| sk_local := l; sk_remote := r |} = opt_list (cipher_key_serialize (Some l)) ++ opt_list (cipher_key_serialize (Some r)).
Proof. reflexivity. Qed.
#[export] Instance storage_keys_build : Builds h_storage_keys_to_proto sk_cells sk_value (fun v => storage_keys_to_proto (Some v)) not_spoiled sk_written
  [T_proto] false.
Proof.
  intros secret U W fails h0 X h t Q HU HW E M K QN QS. unfold sk_cells in M. memory. unfold h_storage_keys_to_proto.
  unfold sk_value in QN, QS, K. rewrite storage_pure in QN, QS. rewrite storage_written in K.
  wstep. wstep; [untested_tac|]. wstep. wstep. wstep. wkey.
  - wstep. apply QN; [assumption|left; rewrite N; reflexivity].
  - wstep. apply QN; [assumption|right; assumption].
  - rewrite V in QN, QS, K. assert (KD : ~ secret (snd d)) by (apply (proj2 K), in_or_app; left; left; reflexivity). wstep. wkey.
    + wstep. wcell d; [exact KD|]. wstep. apply QN; [assumption|left; rewrite N; reflexivity].
    + wstep. wcell d; [exact KD|]. wstep. apply QN; [assumption|right; assumption].
    + rewrite V0 in QN, QS, K. assert (KD0 : ~ secret (snd d0)) by (apply (proj2 K), in_or_app; right; left; reflexivity). wstep.
      eapply QS; [own_ext ([d] ++ [d0] ++ struct_cell b)|own_tac|apply Forall_nil|reflexivity|left; reflexivity]. exact (proj1 K 0%nat).
Qed.
Lemma stream_pure k e p u : stream_key_to_proto {| sk_cipher := k; sk_evo := e; sk_ppe := p; sk_user := u |} =
  match cipher_key_serialize (Some k) with
  | Some b => Some {| pst_cipher_key := Some b; pst_evo := Some e; pst_ppe := Some p; pst_user := u |}
  | None => None
  end.
Proof. reflexivity. Qed.
Lemma stream_written k e p u : st_written {| sk_cipher := k; sk_evo := e; sk_ppe := p; sk_user := u |} = opt_list (cipher_key_serialize (Some k)).
Proof. reflexivity. Qed.
(* the message left behind is not seen by a caller that does not go on *)
Lemma stream_key_made secret (U W : Prop) fails h0 X h t (Q : option (hproto pb_stream_key) -> heap -> Prop) :
  (forall n ty, In ty [] -> fails n ty = true -> U) -> (memory_fails fails -> W \/ forall h1, Q None h1) ->
  ext secret W h0 X h -> in_memory h0 (st_cells t) -> keeps_secret secret (st_written (st_value t)) ->
  (forall h1, ext secret W h0 X h1 -> stream_key_to_proto (st_value t) = None \/ memory_fails fails -> Q None h1) ->
  (forall p h1 m, ext secret W h0 (pr_own p ++ X) h1 -> unsecret secret (pr_own p) -> lasting h0 (pr_borrowed p) ->
     stream_key_to_proto (st_value t) = Some m -> pr_msg p = m \/ memory_fails fails /\ not_spoiled (st_value t) m (pr_msg p) -> Q (Some p) h1) ->
  wp U fails (h_stream_key_to_proto t) h Q.
Proof.
  intros HU HW E M K QN QS. unfold st_cells in M. memory. unfold h_stream_key_to_proto.
  destruct t as [ad k evo ppe user]. unfold st_value in QN, QS, K. cbn [hst_addr hst_cipher hst_evo hst_ppe hst_user] in *.
  rewrite stream_pure in QN, QS. rewrite stream_written in K.
  pose proof (keeps_none _ _ K) as K0.
  wstep. wstep; [wstep; apply QN; [assumption|right; mfailed]|]. wstep. wstep. wstep. wwrite.
  - wstep. apply QN; [assumption|left; apply lift_null in N; rewrite N; reflexivity].
  - wstep. apply QN; [assumption|right; assumption].
  - destruct V as [V|(_ & [])]. apply lift_val in V. pose proof (key_written_ok _ _ V) as Z. rewrite V in QN, QS, K.
    assert (KD : ~ secret (b_bytes o)) by (apply (proj2 K); left; reflexivity). wstep. wproto o Z.
    + wdestroy. destruct HW as [HW|HQ]; [mfailed| |apply HQ]. apply QN; [|right; assumption].
      match goal with E : ext _ _ _ (_ ++ X) ?h |- ext _ _ _ _ ?h => eapply ext_leak; [|exact E] end. exact HW.
    + wstep. wdestroy. wstep. wbytes. wstep. destruct user as [user|]; cbn [cells_opt option_map] in *.
      * wbytes. wstep. wbytes. wstep. wstep. rewrite <- V0 in QS. eapply QS; [own_ext ([d] ++ struct_cell b)|own_tac| |reflexivity|left; reflexivity].
        -- rewrite V0. exact KD.
        -- exact (proj1 K 0%nat).
        -- repeat apply Forall_cons; try apply Forall_nil; apply source_data; assumption.
      * wbytes. wstep. rewrite <- V0 in QS. eapply QS; [own_ext ([d] ++ struct_cell b)|own_tac| |reflexivity|left; reflexivity].
        -- rewrite V0. exact KD.
        -- exact (proj1 K 0%nat).
        -- repeat apply Forall_cons; try apply Forall_nil; apply source_data; assumption.
Qed.
#[export] Instance stream_key_build : Builds h_stream_key_to_proto st_cells st_value stream_key_to_proto not_spoiled st_written [] true.
Proof.
  intros secret U W fails h0 X h t Q HU HW E M K QN QS. eapply stream_key_made; try eassumption. intros F. left. apply HW; [reflexivity|exact F].
Qed.
(* key exchanges *)
Lemma result_written_ok r b : cipher_result_serialize (Some r) = Some b -> size_ok (blen b) = true.
Proof.
  unfold cipher_result_serialize. destruct (negb _); [discriminate|]. destruct (negb _); exact (concat_ok _ _).
Qed.
Lemma exchange_pure i k t : key_exchange_to_proto (Some {| kx_id := i; kx_key_id := k; kx_text := t |}) =
  match cipher_result_serialize (Some t) with Some d => Some {| px_id := i; px_key_id := k; px_data := d |} | None => None end.
Proof. unfold key_exchange_to_proto. cbn [kx_id kx_key_id kx_text]. destruct (cipher_result_serialize (Some t)); reflexivity. Qed.
Lemma exchange_written i k t : kx_written {| kx_id := i; kx_key_id := k; kx_text := t |} = opt_list (cipher_result_serialize (Some t)).
Proof. reflexivity. Qed.
Lemma exchange_rule : build_rule kx_cells kx_value (fun v => key_exchange_to_proto (Some v)) not_spoiled kx_written [] false (fun x => h_exchange_to_proto (Some x)).
Proof.
  intros secret U W fails h0 X h t Q HU HW E M K QN QS. unfold kx_cells in M. memory. unfold h_exchange_to_proto.
  destruct t as [ad i k c]. unfold kx_value in QN, QS, K. cbn [hkx_addr hkx_id hkx_key_id hkx_text] in *.
  rewrite exchange_pure in QN, QS. rewrite exchange_written in K. pose proof (keeps_none _ _ K) as K0.
  wstep. wstep; [wstep; apply QN; [assumption|right; mfailed]|]. wstep. wstep. wstep. wwrite.
  - wstep. apply QN; [assumption|left; apply lift_null in N; rewrite N; reflexivity].
  - wstep. apply QN; [assumption|right; assumption].
  - destruct V as [V|(_ & [])]. apply lift_val in V. pose proof (result_written_ok _ _ V) as Z. rewrite V in QN, QS, K.
    assert (KD : ~ secret (b_bytes o)) by (apply (proj2 K); left; reflexivity).
    assert (KS : keeps_secret secret [b_bytes o]) by (apply (keeps_one _ _ _ K); left; reflexivity). wstep. wproto o Z.
    + wstep. wstep. wdrop o KS. apply QN; [assumption|right; assumption].
    + wstep. wdrop o KS. wstep. wbytes. wstep. rewrite <- V0 in QS. eapply QS; [own_ext ([d] ++ struct_cell b)|own_tac| |reflexivity|left; reflexivity].
      * rewrite V0. exact KD.
      * exact (proj1 K 0%nat).
      * repeat apply Forall_cons; try apply Forall_nil; apply source_data; assumption.
Qed.
Lemma in_memory_flat {T} (cells : T -> list cell) h l : in_memory h (flat_map cells l) -> Forall (fun x => in_memory h (cells x)) l.
Proof.
  induction l as [|x l IH]; intros M; [constructor|]. cbn [flat_map] in M. apply in_memory_app in M. destruct M. constructor; auto.
Qed.
Lemma exchanges_wp secret (U W : Prop) fails h0 array X l : forall done h (Q : option (list (hproto pb_exchange)) -> heap -> Prop),
  (forall n ty, In ty [] -> fails n ty = true -> U) ->
  ext secret W h0 (protos_own done ++ struct_cell array ++ X) h -> unsecret secret (protos_own done) -> lasting h0 (flat_map pr_borrowed done) ->
  Forall (fun x => in_memory h0 (cells_opt kx_cells x)) l -> keeps_secret secret (flat_map (opt_plain kx_written) (map (option_map kx_value) l)) ->
  (forall h1, ext secret W h0 X h1 -> exchange_items_to_proto (map (option_map kx_value) l) = None \/ memory_fails fails -> Q None h1) ->
  (forall r h1 items, ext secret W h0 (protos_own r ++ struct_cell array ++ X) h1 -> unsecret secret (protos_own r) -> lasting h0 (flat_map pr_borrowed r) ->
     exchange_items_to_proto (map (option_map kx_value) l) = Some items -> map pr_msg r = map pr_msg done ++ items -> Q (Some r) h1) ->
  wp U fails (h_exchanges_to_proto array l done) h Q.
Proof.
  induction l as [|x l IH]; intros done h Q HU E N L M K QN QS; cbn [h_exchanges_to_proto map].
  - wstep. eapply QS; [exact E|exact N|exact L|reflexivity|]. rewrite app_nil_r. reflexivity.
  - inversion M as [|? ? M1 M2]; subst. cbn [map flat_map exchange_items_to_proto] in *.
    assert (QNone : forall h1, ext secret W h0 (protos_own done ++ struct_cell array ++ X) h1 ->
      key_exchange_to_proto (option_map kx_value x) = None \/ memory_fails fails ->
      wp U fails (hbind (h_free_all (map fst (protos_own done))) (fun _ => free array)) h1 (fun _ h2 => Q None h2)).
    { intros h1 E1 F. wstep. eapply cells_free_wp; [exact E1|exact N|]. intros h2 E2. wstep. apply QN; [assumption|].
      destruct F as [F|F]; [left; rewrite F; reflexivity|right; exact F]. }
    wstep. destruct x as [x|]; cbn [option_map opt_plain cells_opt] in *.
    + refine (exchange_rule secret U W fails h0 _ _ _ _ _ _ E M1 _ _ _).
      * intros n ty [].
      * intros C. discriminate C.
      * refine (keeps_sub _ _ _ K _). intros c I. apply in_or_app. left. exact I.
      * intros h1 E1 F. apply QNone; assumption.
      * intros p h1 m E1 NP LP PM V. destruct V as [V|(_ & [])]. subst m. rewrite PM in QN, QS. eapply IH.
        -- exact HU.
        -- unfold protos_own. rewrite flat_map_app. cbn [flat_map]. rewrite app_nil_r. fold (protos_own done). eapply ext_perm; [|exact E1]. solve_perm.
        -- unfold protos_own. rewrite flat_map_app. cbn [flat_map]. rewrite app_nil_r. apply unsecret_app; assumption.
        -- rewrite flat_map_app. cbn [flat_map]. rewrite app_nil_r. apply lasting_app; assumption.
        -- exact M2.
        -- refine (keeps_sub _ _ _ K _). intros c I. apply in_or_app. right. exact I.
        -- intros h2 E2 F. apply QN; [exact E2|]. destruct F as [->|F]; [left; reflexivity|right; exact F].
        -- intros r h2 items E2 NR LR PI PR. rewrite PI in QS. eapply QS; [exact E2|exact NR|exact LR|reflexivity|].
           rewrite PR, map_app. cbn [map]. rewrite <- app_assoc. reflexivity.
    + apply wp_ret. apply QNone; [exact E|left; reflexivity].
Qed.
#[export] Instance exchange_set_build : Builds h_exchange_set_to_proto xs_cells xs_value exchange_set_to_proto not_spoiled xs_written [] false.
Proof.
  intros secret U W fails h0 X h t Q HU HW E M K QN QS. unfold xs_cells, key_cells, xa_cells, arr_cells in M. memory. unfold h_exchange_set_to_proto.
  destruct t as [ad k items]. unfold xs_value, exchange_set_to_proto, xs_written, xa_value, arr_value in *. cbn [hxs_addr hxs_sender hxs_items xs_items xs_sender] in *.
  assert (LB : lasting h0 [b_data (hkey_pub k)]) by (repeat apply Forall_cons; try apply Forall_nil; apply source_data; assumption).
  wstep. wstep. wstep. wstep. match goal with M : in_memory h0 (flat_map _ _) |- _ => apply in_memory_flat in M; rename M into MI end.
  destruct (harr_items items) as [|x l] eqn:I; [wstep; apply QN; [assumption|left; reflexivity]|]. rewrite <- I in *.
  assert (NE : match map (option_map kx_value) (harr_items items) with [] => None (A := pb_exchange_set) | _ :: _ =>
     match exchange_items_to_proto (map (option_map kx_value) (harr_items items)) with Some l => Some {| py_sender := ek_pub (key_value k); py_exchanges := l |} | None => None end end =
     match exchange_items_to_proto (map (option_map kx_value) (harr_items items)) with Some l => Some {| py_sender := ek_pub (key_value k); py_exchanges := l |} | None => None end).
  { rewrite I. reflexivity. }
  rewrite NE in QN, QS. clear NE. clear I x l. wstep. wstep; [wstep; apply QN; [assumption|right; mfailed]|]. wstep. eapply exchanges_wp with (done := []).
  - exact HU.
  - match goal with E : ext _ _ _ _ ?h |- ext _ _ _ _ ?h => exact E end.
  - apply Forall_nil.
  - apply Forall_nil.
  - exact MI.
  - exact K.
  - intros h2 E2 F. wstep. apply QN; [exact E2|]. destruct F as [->|F]; [left; reflexivity|right; exact F].
  - intros r h2 its E2 NR LR PI PR. rewrite PI in QN, QS. wstep. wstep.
    + wstep. match goal with E : ext _ _ _ (protos_own r ++ _) _ |- _ => eapply cells_free_wp; [exact E|exact NR|] end. intros h4 E4. wstep. apply QN; [assumption|right; mfailed].
    + wstep. wstep. wstep. wbytes. wstep. eapply QS; [own_ext (protos_own r ++ struct_cell b ++ struct_cell b0)| | |reflexivity|].
      * cbn [pr_own]. apply unsecret_app; [exact NR|]. own_tac; exact (proj1 K 0%nat).
      * cbn [pr_borrowed]. apply Forall_cons; [inversion LB; assumption|exact LR].
      * left. cbn [pr_msg]. rewrite PR. reflexivity.
Qed.
#[export] Instance ctx_build : Builds h_ctx_to_proto cx_cells cx_value ctx_to_proto ctx_spoiled cx_written [T_proto] false.
Proof.
  intros secret U W fails h0 X h t Q HU HW E M K QN QS. unfold cx_cells in M. memory. unfold h_ctx_to_proto. unfold ctx_to_proto in QN, QS. unfold cx_written in K.
  change (cx_chain (cx_value t)) with (ch_value (hcx_chain t)) in QN, QS, K. change (cx_storage (cx_value t)) with (sk_value (hcx_storage t)) in QN, QS, K.
  wstep. wstep. wstep. wbuild.
  - wstep. apply QN; [assumption|left; rewrite N; reflexivity].
  - wstep. apply QN; [assumption|right; assumption].
  - rewrite PM in QN, QS. wstep. wbuild.
    + wfree p. apply QN; [assumption|left; rewrite N0; reflexivity].
    + wfree p. apply QN; [assumption|right; assumption].
    + rewrite PM0 in QN, QS. destruct V0 as [V0|(_ & [])]. wstep. wstep.
      * wstep. wfree p. wfree p0. apply QN; [assumption|right; mfailed].
      * wstep. eapply QS; [own_ext (pr_own p ++ pr_own p0 ++ struct_cell b)| | |reflexivity|].
        -- cbn [pr_own]. repeat apply unsecret_app; try assumption. exact (unsecret_struct _ _ _ K).
        -- cbn [pr_borrowed]. apply lasting_app; assumption.
        -- cbn [pr_msg]. rewrite V0. destruct V as [->|(F & V)]; [left; reflexivity|right]. split; [exact F|].
           exists m, (pr_msg p). repeat split. exact V.
Qed.

(* ---- the functions ---- *)
#[export] Instance identity_write : Writes h_identity_serialize id_cells id_value (fun v => lift (identity_serialize (Some v)))
  (packs_spoiled (fun v => identity_build_proto v false) pb_identity_pack identity_spoiled) id_written [] false.
Proof. exact (write_of_build _ _ _ _ _ _ _ _ _ identity_serialize (identity_build false) (fun _ => eq_refl)). Qed.
#[export] Instance chain_write : Writes h_chain_serialize ch_cells ch_value (fun v => lift (chain_serialize (Some v)))
  (packs_spoiled (fun v => chain_build_proto v false) pb_chain_pack chain_spoiled) ch_written [] false.
Proof. exact (write_of_build _ _ _ _ _ _ _ _ _ chain_serialize (chain_build false) (fun _ => eq_refl)). Qed.
#[export] Instance chain_private_write : Writes h_chain_serialize_private ch_cells ch_value (fun v => lift (chain_serialize_private (Some v)))
  (packs_spoiled (fun v => chain_build_proto v true) pb_chain_pack chain_spoiled) ch_written [] false.
Proof. exact (write_of_build _ _ _ _ _ _ _ _ _ chain_serialize_private (chain_build true) (fun _ => eq_refl)). Qed.
#[export] Instance keypair_write : Writes h_keypair_serialize kp_cells kp_value (fun v => lift (keypair_serialize (Some v)))
  (packs_spoiled keypair_to_proto pb_keypair_pack keypair_spoiled) kp_written [] false.
Proof. exact (write_of_build _ _ _ _ _ _ _ _ _ keypair_serialize keypair_build (fun _ => eq_refl)). Qed.
#[export] Instance node_write : Writes h_node_serialize nd_cells nd_value (fun v => lift (node_serialize (Some v)))
  (packs_spoiled node_to_proto pb_node_pack node_spoiled) nd_written [] true.
Proof. exact (write_of_build _ _ _ _ _ _ _ _ _ node_serialize node_build (fun _ => eq_refl)). Qed.
#[export] Instance exchange_set_write : Writes h_exchange_set_serialize xs_cells xs_value (fun v => lift (exchange_set_serialize (Some v)))
  never_wrong xs_written [] false.
Proof.
  pose proof (write_of_build _ pb_exchange_set_pack _ _ _ _ _ _ _ exchange_set_serialize exchange_set_build) as R.
  assert (P : forall v, exchange_set_serialize (Some v) = match exchange_set_to_proto v with Some m => pack_buffer (pb_exchange_set_pack m) | None => None end).
  { intros v. unfold exchange_set_serialize. destruct (exchange_set_to_proto v); reflexivity. }
  specialize (R P). intros secret U W fails h0 X h t Q HU HB HW E M K QN QS. eapply R with (W := W); try eassumption.
  intros b h1 E1 [V|(_ & (m & m' & _ & [] & _))]. apply QS; [exact E1|left; exact V].
Qed.
#[export] Instance ctx_write : Writes h_ctx_serialize cx_cells cx_value (fun v => lift (ctx_serialize (Some v)))
  (packs_spoiled ctx_to_proto pb_ctx_pack ctx_spoiled) cx_written [T_proto] false.
Proof.
  refine (write_of_build _ _ _ _ _ _ _ _ _ ctx_serialize ctx_build _). intros v. unfold ctx_serialize. destruct (ctx_to_proto v); reflexivity.
Qed.
Ltac wpack :=
  at_heap ltac:(fun E => let E' := fresh "E" in let h := fresh "h" in let N := fresh "N" in let F := fresh "F" in let V := fresh "V" in let o := fresh "o" in
    eapply pack_wp; [exact E|eapply keeps_none; eassumption| | |intros h E' [N|F]; clear E|intros o h E' V; clear E]).
Lemma lasting_in h0 l (P : block -> Prop) : lasting h0 l -> forall b, In b l -> (exists c, mem h0 b = Some c) \/ P b.
Proof. intros L b I. left. unfold lasting in L. rewrite Forall_forall in L. exact (L b I). Qed.
Lemma all_fail fails (U : Prop) : (forall n ty, In ty [T_proto; T_buffer; T_data] -> fails n ty = true -> U) -> memory_fails fails -> U.
Proof. intros HU (n & ty & I & F). exact (HU n ty I F). Qed.
Lemma storage_keys_write_eq v : storage_keys_serialize (Some v) = match storage_keys_to_proto (Some v) with Some m => lift (pack_buffer (pb_storage_keys_pack m)) | None => UB end.
Proof. unfold storage_keys_serialize. destruct (storage_keys_to_proto (Some v)); reflexivity. Qed.
#[export] Instance storage_keys_write : Writes h_storage_keys_serialize sk_cells sk_value (fun v => storage_keys_serialize (Some v))
  never_wrong sk_written [T_proto; T_buffer; T_data] false.
Proof.
  intros secret U W fails h0 X h t Q HU HB HW E M K QN QS. unfold h_storage_keys_serialize. rewrite storage_keys_write_eq in HB, QN, QS.
  wstep. wbuild.
  - apply HB. rewrite N. reflexivity.
  - exact (all_fail _ _ HU F).
  - rewrite PM in HB, QN, QS. destruct V as [V|(_ & [])]. subst m. wpack; [exact N|apply lasting_in; exact L| | |].
    + apply QN; [assumption|left; rewrite N0; reflexivity].
    + apply QN; [assumption|right; assumption].
    + apply QS; [assumption|left; rewrite V; reflexivity].
Qed.
Lemma stream_key_write_eq v : stream_key_serialize (Some v) = match stream_key_to_proto v with Some m => lift (pack_buffer (pb_stream_key_pack m)) | None => UB end.
Proof. unfold stream_key_serialize. destruct (stream_key_to_proto v); reflexivity. Qed.
#[export] Instance stream_key_write : Writes h_stream_key_serialize st_cells st_value (fun v => stream_key_serialize (Some v))
  never_wrong st_written [T_proto; T_buffer; T_data] false.
Proof.
  intros secret U W fails h0 X h t Q HU HB HW E M K QN QS. unfold h_stream_key_serialize. rewrite stream_key_write_eq in HB, QN, QS.
  wstep. eapply stream_key_made; [intros n ty []|intros F; right; intros h1; exact (all_fail _ _ HU F)|exact E|exact M|exact K|intros h1 E1 [N|F]|intros p h1 m E1 N L PM V; clear E].
  - apply HB. rewrite N. reflexivity.
  - exact (all_fail _ _ HU F).
  - rewrite PM in HB, QN, QS. destruct V as [V|(_ & [])]. subst m. wpack; [exact N|apply lasting_in; exact L| | |].
    + apply QN; [assumption|left; rewrite N0; reflexivity].
    + apply QN; [assumption|right; assumption].
    + apply QS; [assumption|left; rewrite V; reflexivity].
Qed.
Lemma payload_write_eq v : payload_serialize (Some v) = pack_buffer (pb_payload_pack (payload_to_proto v)).
Proof. reflexivity. Qed.
#[export] Instance payload_write : Writes h_payload_serialize py_cells py_value (fun v => lift (payload_serialize (Some v))) never_wrong nothing [] false.
Proof.
  intros secret U W fails h0 X h t Q HU HB HW E M K QN QS. unfold py_cells, me_cells in M. memory. unfold h_payload_serialize.
  wstep. wstep. wstep. wstep. wstep. wbytes. wstep. wbytes.
  assert (LB : lasting h0 [b_data (hme_tag (hpy_meta t)); b_data (hpy_body t)]) by (repeat apply Forall_cons; try apply Forall_nil; apply source_data; assumption).
  eapply pack_wp with (X := X); [exact E|exact K|apply Forall_nil|apply lasting_in; exact LB| |].
  - intros h1 E1 F. apply QN; [exact E1|]. destruct F as [F|F]; [left|right; exact F]. cbn [pr_msg] in F. rewrite payload_write_eq. unfold payload_to_proto, py_value, me_value.
    cbn [py_meta py_body me_ttl me_bor me_tag me_type]. cbv zeta. rewrite F. reflexivity.
  - intros b h1 E1 F. apply QS; [exact E1|left]. cbn [pr_msg] in F. rewrite payload_write_eq. unfold payload_to_proto, py_value, me_value.
    cbn [py_meta py_body me_ttl me_bor me_tag me_type]. cbv zeta. rewrite F. reflexivity.
Qed.
Lemma root_pure s n r : root_keys_serialize (Some {| rk_signature := s; rk_node := n; rk_remote := r |}) =
  match ek_pri s with
  | None => UB
  | Some pri =>
      match cipher_key_serialize (Some n) with
      | None => Null
      | Some a => match cipher_key_serialize (Some r) with
                  | None => Null
                  | Some b => lift (pack_buffer (pb_root_keys_pack {| pr_version := CURRENT_ROOT_KEY_VERSION; pr_node := Some a; pr_remote := Some b; pr_signature := Some pri |}))
                  end
      end
  end.
Proof. unfold root_keys_serialize. cbn [rk_signature rk_node rk_remote]. destruct (ek_pri s); [|reflexivity]. destruct (cipher_key_serialize (Some n)); [|reflexivity].
  cbn [lift rbind]. destruct (cipher_key_serialize (Some r)); reflexivity. Qed.
Lemma root_write_none t : hkey_pri (hrk_sig t) = None -> root_keys_serialize (Some (rk_value t)) = UB.
Proof. intros H. unfold rk_value. rewrite root_pure. unfold key_value. cbn [ek_pri]. rewrite H. reflexivity. Qed.
Lemma root_write_some t pri : hkey_pri (hrk_sig t) = Some pri -> root_keys_serialize (Some (rk_value t)) =
  match cipher_key_serialize (Some (ck_value (hrk_node t))) with
  | None => Null
  | Some a => match cipher_key_serialize (Some (ck_value (hrk_remote t))) with
              | None => Null
              | Some b => lift (pack_buffer (pb_root_keys_pack {| pr_version := CURRENT_ROOT_KEY_VERSION; pr_node := Some a; pr_remote := Some b; pr_signature := Some (b_bytes pri) |}))
              end
  end.
Proof. intros H. unfold rk_value. rewrite root_pure. unfold key_value. cbn [ek_pri]. rewrite H. reflexivity. Qed.
#[export] Instance root_keys_write : Writes h_root_keys_serialize rk_cells rk_value (fun v => root_keys_serialize (Some v)) never_wrong nothing [] false.
Proof.
  intros secret U W fails h0 X h t Q HU HB HW E M K QN QS. unfold rk_cells, key_cells in M. memory. unfold h_root_keys_serialize.
  wstep. wstep. wstep. wstep. destruct (hkey_pri (hrk_sig t)) as [pri|] eqn:HP; [|apply HB; exact (root_write_none _ HP)].
  rewrite (root_write_some _ _ HP) in HB, QN, QS. match goal with M : in_memory h0 (cells_opt _ (Some pri)) |- _ => cbn [cells_opt] in M end.
  wstep. wbytes. wstep. wwrite.
  - wstep. apply QN; [assumption|left; apply lift_null in N; rewrite N; reflexivity].
  - wstep. apply QN; [assumption|right; assumption].
  - destruct V as [V|(_ & [])]. apply lift_val in V. rewrite V in HB, QN, QS. wstep. wwrite.
    + wdestroy. apply QN; [assumption|left; apply lift_null in N; rewrite N; reflexivity].
    + wdestroy. apply QN; [assumption|right; assumption].
    + destruct V0 as [V0|(_ & [])]. apply lift_val in V0. rewrite V0 in HB, QN, QS. wstep.
      match goal with E : ext _ _ _ _ ?h |- wp _ _ _ ?h _ => eapply pack_wp with (p := {| pr_own := []; pr_borrowed := _; pr_msg := _ |}); [exact E|exact K|apply Forall_nil| | |] end.
      * cbn [pr_borrowed]. intros x [<-|[<-|[<-|[]]]].
        -- left. apply source_data. assumption.
        -- right. rewrite !map_app. apply in_or_app. right. apply in_or_app. left. right. left. reflexivity.
        -- right. rewrite !map_app. apply in_or_app. left. right. left. reflexivity.
      * intros h9 E9 F. wstep. wdestroy. wstep. wdestroy. wstep. apply QN; [assumption|]. destruct F as [F|F]; [left|right; exact F].
        cbn [pr_msg] in F. rewrite F. reflexivity.
      * intros b h9 E9 F. wstep. wdestroy. wstep. wdestroy. wstep. apply QS; [assumption|]. left. cbn [pr_msg] in F. rewrite F. reflexivity.
Qed.
Lemma packet_pure v c s : packet_serialize (Some {| pt_version := v; pt_content := c; pt_signature := s |}) =
  match ecdsa_result_serialize (Some s) with
  | None => None
  | Some b => buffer_concat_multi [Some [n2b v]; Some [n2b (curve_id (es_curve s))]; Some c; Some b]
  end.
Proof.
  unfold packet_serialize. cbn [pt_signature pt_version pt_content]. destruct (ecdsa_result_serialize (Some s)) as [b|] eqn:V; [|reflexivity].
  rewrite (proj2 (N.eqb_eq _ _) (sig_written_143 _ _ V)). reflexivity.
Qed.
Lemma packet_write_eq t : packet_serialize (Some (pt_value t)) =
  match ecdsa_result_serialize (Some (sig_value (hpt_sig t))) with
  | None => None
  | Some b => buffer_concat_multi [Some [n2b (hpt_version t)]; Some [n2b (curve_id (es_curve (sig_value (hpt_sig t))))]; Some (b_bytes (hpt_content t)); Some b]
  end.
Proof. exact (packet_pure _ _ (sig_value (hpt_sig t))). Qed.
Lemma no_padding (a c : byte) (z l : bytes) : blen (a :: c :: l) = blen (a :: c :: z ++ l) -> a :: c :: z ++ l = a :: c :: l.
Proof. destruct z; [reflexivity|]. unfold blen. cbn [length app]. rewrite app_length. lia. Qed.
Lemma concat4_shape (m p : byte) z l c : buffer_concat_multi [Some [m]; Some [p]; z; Some l] = Some c -> c = m :: p :: obytes z ++ l.
Proof.
  unfold buffer_concat_multi, buffer_create. cbn [map obytes concat app]. rewrite app_nil_r. destruct (size_ok _); [|discriminate]. intros V. apply Some_inj' in V. symmetry. exact V.
Qed.
Lemma unpadded_eq s : exists (m p : byte), unpadded s = (m :: p :: es_sig s)%list /\
  forall c, ecdsa_result_serialize (Some s) = Some c -> exists z, buffer_concat_multi [Some [m]; Some [p]; z; Some (es_sig s)] = Some c.
Proof.
  eexists _, _. split; [reflexivity|]. intros c. unfold ecdsa_result_serialize. destruct (_ <? _); [discriminate|]. cbv zeta. intros V. eexists. exact V.
Qed.
Lemma unpadded_143 s c : ecdsa_result_serialize (Some s) = Some c -> blen (unpadded s) = signature_size (es_curve s) -> c = unpadded s.
Proof.
  intros V L. rewrite <- (sig_written_143 _ _ V) in L. destruct (unpadded_eq s) as (m & p & U & G). destruct (G _ V) as (z & Z). apply concat4_shape in Z.
  rewrite U in *. subst c. exact (no_padding _ _ _ _ L).
Qed.
#[export] Instance packet_write : Writes h_packet_serialize pt_cells pt_value (fun v => lift (packet_serialize (Some v))) never_wrong pt_written [] true.
Proof.
  intros secret U W fails h0 X h t Q HU HB HW E M K QN QS. unfold pt_cells in M. memory.
  assert (MS : mem h0 (hsig_addr (hpt_sig t)) = Some []).
  { match goal with M : in_memory h0 (sig_cells _) |- _ => unfold sig_cells in M; apply in_memory_app in M; exact (in_memory_struct _ _ (proj1 M)) end. }
  unfold h_packet_serialize. rewrite packet_write_eq in QN, QS.
  pose proof (keeps_none _ _ K) as K0.
  wstep. wstep. wstep. wstep. wstep. wwrite.
  - wstep. apply QN; [assumption|left; apply lift_null in N; rewrite N; reflexivity].
  - wstep. apply QN; [assumption|right; assumption].
  - destruct (sig_made_ok _ _ _ V) as (I & _). pose proof (keeps_one _ _ _ K I) as KS. wstep. wbytes.
    change (hsig_curve (hpt_sig t)) with (es_curve (sig_value (hpt_sig t))). destruct (negb _) eqn:C.
    + wstep. destruct V as [V|(F & _)].
      * exfalso. apply lift_val in V. rewrite (proj2 (N.eqb_eq _ _) (sig_written_143 _ _ V)) in C. discriminate C.
      * apply QN; [|right; exact F]. match goal with E : ext _ _ _ (_ ++ X) ?h |- ext _ _ _ _ ?h => eapply ext_leak; [|exact E] end. apply HW; [reflexivity|exact F].
    + assert (G : ecdsa_result_serialize (Some (sig_value (hpt_sig t))) = Some (b_bytes o) \/ memory_fails fails /\ b_bytes o = unpadded (sig_value (hpt_sig t))).
      { destruct V as [V|(F & V & _)]; [left; apply lift_val; exact V|right; split; assumption]. }
      wstep. wbytes. wstep. wbytes.
      * wstep. wdrop o KS. wstep. apply QN; [assumption|]. destruct G as [G|(F & _)]; [left; rewrite G, N; reflexivity|right; exact F].
      * wstep. wdrop o KS. wstep. apply QN; [assumption|right; exact F].
      * wstep. wdrop o KS. wstep. apply QS; [assumption|]. destruct G as [G|(F & G)]; [left; rewrite G, V0; reflexivity|].
        destruct V as [V|(_ & V & _ & c & S)]; [apply lift_val in V; left; rewrite V, V0; reflexivity|].
        rewrite G in C. apply Bool.negb_false_iff, N.eqb_eq in C. pose proof (unpadded_143 _ _ S C) as UP. rewrite <- V in UP. subst c.
        left. rewrite S, V0. reflexivity.
Qed.
Lemma tpacket_write_eq t : tpacket_serialize (tp_value t) =
  match tmeta_serialize (htp_meta t) with
  | None => None
  | Some m => buffer_concat_multi [Some m; Some (b_bytes (htp_body t)); option_map b_bytes (htp_mac t)]
  end.
Proof. reflexivity. Qed.
Lemma tmeta_made m c : tmeta_serialize m = Some c -> buffer_create c = Some c.
Proof. unfold tmeta_serialize, buffer_create. destruct (tm_body m); (destruct (size_ok _) eqn:Z; [|discriminate]); intros V; apply Some_inj' in V; subst c; rewrite Z; reflexivity. Qed.
#[export] Instance tpacket_write : Writes h_tpacket_serialize tp_cells tp_value (fun v => lift (tpacket_serialize v)) never_wrong tp_written [] false.
Proof.
  intros secret U W fails h0 X h t Q HU HB HW E M K QN QS. unfold tp_cells in M. memory. unfold h_tpacket_serialize, h_tmeta_serialize.
  rewrite tpacket_write_eq in QN, QS. unfold tp_written, tp_value in K. cbn [tp_meta] in K. pose proof (keeps_none _ _ K) as K0.
  wstep. wstep. wstep. destruct (tmeta_serialize (htp_meta t)) as [c|] eqn:Z.
  2:{ cbn [lift hstep]. wstep. wstep. apply QN; [exact E|left; reflexivity]. }
  cbn [lift hstep opt_list] in *. pose proof (tmeta_made _ _ Z) as Y. wbytes.
  - rewrite Y in N. discriminate N.
  - wstep. apply QN; [assumption|right; assumption].
  - rewrite Y in V. apply Some_inj' in V. subst c. wstep. wbytes. wstep. wbytes. wstep. destruct (htp_mac t) as [mac|]; cbn [h_bytes_opt option_map] in *.
    + match goal with M : in_memory h0 (cells_opt _ (Some mac)) |- _ => cbn [cells_opt] in M end. wstep. wbytes. wstep. wstep. wbytes.
      * wstep. wdrop b K. wstep. apply QN; [assumption|left; rewrite N; reflexivity].
      * wstep. wdrop b K. wstep. apply QN; [assumption|right; assumption].
      * wstep. wdrop b K. wstep. apply QS; [assumption|left; rewrite V; reflexivity].
    + wstep. wstep. wbytes.
      * wstep. wdrop b K. wstep. apply QN; [assumption|left; rewrite N; reflexivity].
      * wstep. wdrop b K. wstep. apply QN; [assumption|right; assumption].
      * wstep. wdrop b K. wstep. apply QS; [assumption|left; rewrite V; reflexivity].
Qed.
