(* Rules for the functions of Model/HeapEngine.v. *)
From Verif.Base Require Import Bytes Monad.
From Verif.Model Require Import Buffer CString Cipher Ecdsa Kdf Prims Engine Heap HeapObjects HeapMessages HeapParse HeapWrite HeapEngine.
From Verif.Spec Require Import HeapSpec HeapObjectSpec BufferSpec CopySpec HeapParseSpec HeapWriteSpec HeapEngineSpec.
From Verif.Proofs Require Import BufferFacts HeapFacts HeapObjectFacts HeapCtxFacts HeapParseFacts HeapWriteFacts.
From Coq Require Import Permutation ZifyBool ZifyNat ZifyN.
Local Open Scope N_scope.

Lemma nodup_append {A} (l m : list A) : NoDup l -> NoDup m -> (forall b, In b l -> ~ In b m) -> NoDup (l ++ m).
Proof.
  induction l as [|b l IH]; cbn; intros B' B NX; [exact B|]. inversion B'; subst. constructor.
  - rewrite in_app_iff. intros [I|I]; [contradiction|]. exact (NX b (or_introl eq_refl) I).
  - apply IH; [assumption..|]. intros x I. apply NX. right. exact I.
Qed.
(* two steps after one another *)
Lemma ext0_trans secret h0 X h Y h1 : ext0 secret h0 X h -> ext0 secret h Y h1 -> ext0 secret h0 (Y ++ X) h1.
Proof.
  intros (A & B & C & D & g & E1 & E2) (A' & B' & C' & D' & g' & E1' & E2').
  assert (NX : forall b, In b (map fst Y) -> ~ In b (map fst X)).
  { intros b I J. apply in_map_iff in I. destruct I as ((b1 & c1) & <- & I). apply in_map_iff in J. destruct J as ((b2 & c2) & G & J).
    cbn in *. subst b2. destruct (C' _ _ I) as (_ & N). destruct (C _ _ J) as (M & _). congruence. }
  split; [exact A'|]. split; [|split; [|split]].
  - rewrite map_app. apply nodup_append; assumption.
  - intros b c I. apply in_app_or in I. destruct I as [I|I].
    + destruct (C' _ _ I) as (M & N). split; [exact M|]. rewrite <- (D b); [exact N|]. apply NX. apply in_map_iff. exists (b, c). split; [reflexivity|exact I].
    + destruct (C _ _ I) as (M & N). split; [|exact N]. rewrite D'; [exact M|]. intros J. apply NX in J. apply J. apply in_map_iff. exists (b, c). split; [reflexivity|exact I].
  - intros b N. rewrite map_app, in_app_iff in N. rewrite D', D; [reflexivity| |]; intros I; apply N; [right|left]; exact I.
  - exists (g' ++ g). rewrite E1', E1, app_assoc. split; [reflexivity|]. intros b c I. apply in_app_or in I. destruct I as [I|I]; [exact (E2' _ _ I)|exact (E2 _ _ I)].
Qed.
Lemma ext_trans secret W h0 X h Y h1 : ext secret W h0 X h -> ext secret W h Y h1 -> ext secret W h0 (Y ++ X) h1.
Proof.
  intros (L & A & E) (L' & A' & E'). exists (L' ++ L). split.
  - destruct A as [->|w]; [|right; exact w]. destruct A' as [->|w]; [left; reflexivity|right; exact w].
  - eapply ext0_perm; [|exact (ext0_trans _ _ _ _ _ _ E E')]. rewrite <- !app_assoc. apply Permutation_app_head. rewrite !app_assoc.
    apply Permutation_app_tail, Permutation_app_comm.
Qed.
Lemma ext_ok secret W h0 X h : ext secret W h0 X h -> heap_ok h.
Proof. intros (L & A & E). exact (proj1 E). Qed.
(* an object made meanwhile, or one of the caller's, can be an argument *)
Lemma made_in_memory secret W h0 X h cs : ext secret W h0 (cs ++ X) h -> in_memory h cs.
Proof.
  intros (L & _ & (_ & N & C & _)). rewrite !map_app in N. apply nodup_r in N. apply nodup_l in N. split; [exact N|].
  intros b c I. apply (C b c). rewrite !in_app_iff. auto.
Qed.
Lemma source_in_memory secret W h0 X h cs : ext secret W h0 X h -> in_memory h0 cs -> in_memory h cs.
Proof. intros E (N & M). split; [exact N|]. intros b c I. eapply ext_source; [exact E|exact (M b c I)]. Qed.

Definition op_rule {T V} (cells : T -> list cell) (value : T -> V) (args : list (list cell)) (pure : res V)
  (public exposed : list bytes) (untested : list ctype) (leak : schedule -> Prop) (op : H (option T)) : Prop :=
  forall secret (U W : Prop) fails h (Q : option T -> heap -> Prop),
    (forall n ty, In ty untested -> fails n ty = true -> U) -> (pure = UB -> U) -> (leak fails -> W) ->
    heap_ok h -> all_in_memory h args -> keeps_secret secret public -> (some_failure fails -> keeps_secret secret exposed) ->
    (forall h1, ext secret W h [] h1 -> pure = Null \/ some_failure fails -> Q None h1) ->
    (forall t h1, ext secret W h (cells t) h1 -> pure = Val (value t) -> Q (Some t) h1) ->
    wp U fails op h Q.
(* in the middle of another function *)
Lemma op_call {T V} (cells : T -> list cell) (value : T -> V) args pure public exposed untested leak op :
  op_rule cells value args pure public exposed untested leak op ->
  forall secret (U W : Prop) fails h0 X h (Q : option T -> heap -> Prop),
    (forall n ty, In ty untested -> fails n ty = true -> U) -> (pure = UB -> U) -> (leak fails -> W) ->
    ext secret W h0 X h -> all_in_memory h args -> keeps_secret secret public -> (some_failure fails -> keeps_secret secret exposed) ->
    (forall h1, ext secret W h0 X h1 -> pure = Null \/ some_failure fails -> Q None h1) ->
    (forall t h1, ext secret W h0 (cells t ++ X) h1 -> pure = Val (value t) -> Q (Some t) h1) ->
    wp U fails op h Q.
Proof.
  intros R secret U W fails h0 X h Q HU HB HW E M K KE QN QS. eapply R with (W := W); try eassumption.
  - eapply ext_ok; exact E.
  - intros h1 E1 F. apply QN; [|exact F]. exact (ext_trans _ _ _ _ _ _ _ E E1).
  - intros t h1 E1 F. apply QS; [|exact F]. exact (ext_trans _ _ _ _ _ _ _ E E1).
Qed.
Lemma op_sound {T V} (cells : T -> list cell) (value : T -> V) args pure public exposed untested leak op :
  op_rule cells value args pure public exposed untested leak op -> performs_in_memory cells value args pure public exposed untested leak op.
Proof.
  intros R secret fails h OK M K KE.
  pose (U := pure = UB \/ exists n ty, In ty untested /\ fails n ty = true).
  pose (Q := fun (o : option T) h' => match o with
     | None => exists leaked, (leaked = [] \/ leak fails) /\ grown h leaked h' /\ wiped secret h h' /\ (pure = Null \/ some_failure fails)
     | Some t => exists leaked, (leaked = [] \/ leak fails) /\ grown h (leaked ++ cells t) h' /\ wiped secret h h' /\ pure = Val (value t)
     end).
  assert (G : wp U fails op h Q).
  { eapply R with (W := leak fails); try eassumption.
    - intros n ty I F. right. exists n, ty. split; assumption.
    - intros F. left. exact F.
    - auto.
    - intros h1 (L & A & E) F. rewrite app_nil_r in E. destruct (ext0_grown _ _ _ _ E) as (G & B). exists L. repeat (split; [assumption|]). exact F.
    - intros t h1 (L & A & E) F. destruct (ext0_grown _ _ _ _ E) as (G & B). exists L. repeat (split; [assumption|]). exact F. }
  unfold wp in G. destruct (op fails h) as [[[t|] h']|]; exact G.
Qed.
Lemma never_fails : ~ some_failure never.
Proof. intros (n & ty & F). discriminate F. Qed.
Lemma grown_none h h' : grown h [] h' -> same_memory h h'.
Proof. intros (A & _ & _ & D). split; [exact A|]. intros x. apply D. intros []. Qed.
Lemma op_clean {T V} (cells : T -> list cell) (value : T -> V) args pure public exposed untested leak op :
  performs_in_memory cells value args pure public exposed untested leak op -> ~ leak never -> performs_cleanly cells value args pure public op.
Proof.
  intros R NL secret h OK M K. specialize (R secret never h OK M K (fun F => match never_fails F with end)).
  destruct (op never h) as [[[t|] h']|].
  - destruct R as (L & [->|F] & G & B & VV); [|contradiction]. rewrite VV. exists t, h'. repeat split; assumption || apply G.
  - destruct R as (L & [->|F] & G & B & VV); [|contradiction]. destruct VV as [VV|F]; [|destruct (never_fails F)]. rewrite VV.
    exists h'. split; [reflexivity|]. split; [apply grown_none; exact G|exact B].
  - destruct R as [R|(n & ty & _ & F)]; [|discriminate F]. rewrite R. reflexivity.
Qed.
Lemma op_strict {T V} (cells : T -> list cell) (value : T -> V) args pure public op :
  performs_in_memory cells value args pure public [] [] never_leaks_op op -> performs_safely cells value args pure public op.
Proof.
  intros R secret fails h OK M K. specialize (R secret fails h OK M K (fun _ => keeps_sub _ _ _ K (incl_nil_l _))).
  destruct (op fails h) as [[[t|] h']|].
  - destruct R as (L & [->|[]] & G & B & VV). repeat split; assumption || apply G.
  - destruct R as (L & [->|[]] & G & B & VV). split; [apply grown_none; exact G|split; assumption].
  - destruct R as [R|(n & ty & [] & _)]. exact R.
Qed.

(* ---- steps ---- *)
Lemma fill_wp secret (U W : Prop) fails h0 X h b c (Q : hbuf -> heap -> Prop) :
  ext secret W h0 (buf_cells b ++ X) h -> blen c = blen (b_bytes b) ->
  (forall h1, ext secret W h0 (buf_cells {| b_addr := b_addr b; b_data := b_data b; b_bytes := c |} ++ X) h1 ->
     Q {| b_addr := b_addr b; b_data := b_data b; b_bytes := c |} h1) ->
  wp U fails (h_fill b c) h Q.
Proof.
  intros E L QS. unfold h_fill. wstep. unfold buf_cells in E. norm E. pull E (one_cell (b_data b) (b_bytes b)). eapply wp_store; [exact E|exact L|].
  intros h1 E1. wstep. apply QS. unfold buf_cells. cbn [b_addr b_data b_bytes]. eapply ext_perm; [|exact E1]. solve_perm.
Qed.
Lemma blen_zeros n : blen (zeros (N.to_nat n)) = n.
Proof. unfold blen, zeros. rewrite repeat_length. lia. Qed.
Lemma blen_repeat n : blen (repeat x00 (N.to_nat n)) = n.
Proof. exact (blen_zeros n). Qed.
Lemma blen_fit n c : blen (fit n c) = n.
Proof. unfold fit, blen. rewrite firstn_length, app_length, repeat_length. lia. Qed.
Lemma all_cons h a l : all_in_memory h (a :: l) -> in_memory h a /\ all_in_memory h l.
Proof. intros M. inversion M; subst. split; assumption. Qed.
Lemma memory_none secret (fails : schedule) : memory_fails fails -> (some_failure fails -> secret) -> secret.
Proof. intros F G. apply G, memory_fails_some, F. Qed.
(* the arguments *)
Ltac args :=
  repeat match goal with
  | M : all_in_memory _ (_ :: _) |- _ => let M1 := fresh "M" in apply all_cons in M; destruct M as (M1 & M)
  | M : all_in_memory _ [] |- _ => clear M
  | M : in_memory _ (oc _ (Some _)) |- _ => unfold oc in M
  | M : in_memory _ (oc _ None) |- _ => clear M
  | M : in_memory _ (key_cells _) |- _ => unfold key_cells in M
  | M : in_memory _ (ck_cells _) |- _ => unfold ck_cells in M
  | M : in_memory _ (cr_cells _) |- _ => unfold cr_cells in M
  | M : in_memory _ (sig_cells _) |- _ => unfold sig_cells in M
  end; memory.
Ltac start_op := intros secret U W fails h Q HU HB HW OK M K KE QN QS; pose proof (ext_start secret W h OK) as E; pose proof (keeps_none _ _ K) as K0.
Ltac new_buffer :=
  at_heap ltac:(fun E => let E' := fresh "E" in let h := fresh "h" in let N := fresh "N" in let F := fresh "F" in let B := fresh "B" in let Z := fresh "Z" in
    eapply buffer_new_wp; [exact E|assumption|intros h E' [N|F]; clear E|intros ? h E' B Z; clear E]).
Ltac fill b :=
  at_heap ltac:(fun E => pull E (buf_cells b); let E' := fresh "E" in let h := fresh "h" in
    eapply fill_wp; [exact E| |intros h E'; clear E]).
Ltac mused := match goal with HU : forall n ty, _ -> _ n ty = true -> ?U, F : memory_fails _ |- ?U =>
  let n := fresh in let ty := fresh in let I := fresh in let G := fresh in destruct F as (n & ty & I & G); apply (HU n ty); [|exact G] end.
Ltac used := match goal with HU : forall n ty, _ -> _ n ty = true -> ?U, F : exists n, _ = true |- ?U =>
  let n := fresh in let G := fresh in destruct F as (n & G); eapply HU; [|exact G]; cbn; tauto end.
Ltac sfailed := first [assumption|apply memory_fails_some; assumption|match goal with F : exists n, ?fails n _ = true |- some_failure ?fails =>
  let n := fresh in destruct F as (n & F); exists n; eexists; exact F end].
Ltac gone := match goal with QN : forall h1, ext _ _ _ _ h1 -> _ -> ?Q None h1, E : ext _ _ _ _ ?h |- ?Q None ?h => apply QN; [first [exact E|eapply ext_perm; [|exact E]; solve_perm]|] end.
Ltac there := match goal with QS : forall t h1, ext _ _ _ _ h1 -> _ -> ?Q (Some t) h1, E : ext _ _ _ _ ?h |- ?Q (Some _) ?h =>
  apply QS; [eapply ext_perm; [|exact E]; first [solve [solve_perm]|solve [unfold ck_cells, cr_cells, key_cells, sig_cells, kr_cells, km_cells;
    cbn [hck_addr hck_data hcr_addr hcr_iv hcr_text hcr_tag hkey_addr hkey_pub hkey_pri hsig_addr hsig_data hkr_addr hkr_meta hkr_hash hkm_addr hkm_salt hkm_info cells_opt]; solve_perm]]|] end.

Lemma buffer_empty_wp secret (U W : Prop) fails h0 X h len (Q : option hbuf -> heap -> Prop) :
  ext secret W h0 X h -> keeps_secret secret [] ->
  (forall h1, ext secret W h0 X h1 -> size_ok len = false \/ buffer_fails fails -> Q None h1) ->
  (forall b h1, ext secret W h0 (buf_cells b ++ X) h1 -> b_bytes b = zeros (N.to_nat len) -> size_ok len = true -> Q (Some b) h1) ->
  wp U fails (h_buffer_create_empty len) h Q.
Proof.
  intros E K QN QS. unfold h_buffer_create_empty. destruct (size_ok len) eqn:Z; unfold size_ok in Z.
  - replace ((MAX_BUFFER_SIZE <? len) || (len =? 0)) with false by lia.
    wstep. wstep.
    + wstep. apply QN; [assumption|right; left; assumption].
    + wstep. at_heap ltac:(fun E => eapply wp_alloc; [exact E|intros h2 E2 F; clear E|intros d h2 E2; clear E]).
      * wstep. apply QN; [assumption|right; right; assumption].
      * wstep. apply QS; [|reflexivity|reflexivity]. unfold buf_cells. cbn [b_addr b_data b_bytes]. eapply ext_perm; [|exact E2]. solve_perm.
  - replace ((MAX_BUFFER_SIZE <? len) || (len =? 0)) with true by lia. wstep. apply QN; [exact E|left; reflexivity].
Qed.
Ltac bused := match goal with HU : forall n ty, _ -> _ n ty = true -> ?U, F : buffer_fails _ |- ?U =>
  let n := fresh in let G := fresh in destruct F as [(n & G)|(n & G)]; eapply HU; [|exact G| |exact G]; cbn; tauto end.
Ltac sfailed ::= first [assumption|apply memory_fails_some; assumption|apply buffer_fails_some; assumption|match goal with F : exists n, ?fails n _ = true |- some_failure ?fails =>
  let n := fresh in destruct F as (n & F); exists n; eexists; exact F end].
Ltac new_buffer ::=
  at_heap ltac:(fun E => let E' := fresh "E" in let h := fresh "h" in let N := fresh "N" in let F := fresh "F" in let B := fresh "B" in let Z := fresh "Z" in
    eapply buffer_empty_wp; [exact E|assumption|intros h E' [N|F]; clear E|intros ? h E' B Z; clear E]).
(* reading an argument *)
Ltac rd := wstep; wbytes.
Lemma bytes_opt_wp secret (U W : Prop) fails h0 X h o (Q : option bytes -> heap -> Prop) :
  ext secret W h0 X h -> in_memory h0 (oc buf_cells o) -> Q (option_map b_bytes o) h -> wp U fails (h_bytes_opt o) h Q.
Proof.
  intros E M G. destruct o as [b|]; [|apply wp_ret; exact G]. unfold oc in M. unfold h_bytes_opt. wstep. wbytes. wstep. exact G.
Qed.
Ltac rdo := wstep; at_heap ltac:(fun E => eapply bytes_opt_wp; [exact E|eassumption|]).
Ltac release b :=
  at_heap ltac:(fun E => pull E (buf_cells b); let E' := fresh "E" in let h := fresh "h" in
    eapply (proj2 buffer_destroy_rule); [exact E| |intros h E'; clear E]).
Ltac wipe b :=
  at_heap ltac:(fun E => pull E (buf_cells b); let E' := fresh "E" in let h := fresh "h" in
    eapply (proj2 buffer_destroy_zero_rule); [exact E|assumption|intros h E'; clear E]).
Lemma keeps_zeros secret b n : keeps_secret secret [] -> b_bytes b = zeros n -> keeps_secret secret [b_bytes b].
Proof. intros K Z. split; [exact (proj1 K)|]. intros c [<-|[]]. rewrite Z. apply (proj1 K). Qed.
Lemma digest_size_ok d : size_ok (digest_size d) = true.
Proof. destruct d; reflexivity. Qed.
Ltac start_op ::= intros secret U W fails h Q HU HB HW OK M K KE QN QS; pose proof (ext_start secret W h OK) as E; pose proof (keeps_none _ _ K) as K0; args.

Lemma buffer_put_wp secret (U W : Prop) fails h0 X h v (Q : option hbuf -> heap -> Prop) :
  ext secret W h0 X h -> keeps_secret secret [] ->
  (forall h1, ext secret W h0 X h1 -> buffer_create v = None \/ buffer_fails fails -> Q None h1) ->
  (forall b h1, ext secret W h0 (buf_cells b ++ X) h1 -> b_bytes b = v -> buffer_create v = Some v -> Q (Some b) h1) ->
  wp U fails (h_buffer_create v) h Q.
Proof.
  intros E K QN QS. unfold h_buffer_create. wstep. unfold buffer_create in *. new_buffer.
  - wstep. apply QN; [assumption|]. rewrite N. left. reflexivity.
  - wstep. apply QN; [assumption|]. right. exact F.
  - rewrite Z in QS. destruct b as [a d z]. cbn [b_bytes b_addr b_data] in *. subst z. unfold buf_cells in E0. cbn [b_addr b_data b_bytes] in E0. norm E0.
    wstep. pull E0 (one_cell d (zeros (N.to_nat (blen v)))). eapply wp_store; [exact E0|rewrite blen_zeros; reflexivity|].
    intros h2 E2. wstep. apply QS; [|reflexivity|reflexivity]. unfold buf_cells. cbn [b_addr b_data b_bytes]. eapply ext_perm; [|exact E2]. solve_perm.
Qed.
Lemma buffer_copy_wp secret (U W : Prop) fails h0 X h v (Q : option hbuf -> heap -> Prop) :
  ext secret W h0 X h -> mem h (b_addr v) = Some [] -> mem h (b_data v) = Some (b_bytes v) -> keeps_secret secret [] ->
  (forall h1, ext secret W h0 X h1 -> buffer_create (b_bytes v) = None \/ buffer_fails fails -> Q None h1) ->
  (forall b h1, ext secret W h0 (buf_cells b ++ X) h1 -> b_bytes b = b_bytes v -> buffer_create (b_bytes v) = Some (b_bytes v) -> Q (Some b) h1) ->
  wp U fails (h_buffer_copy (Some v)) h Q.
Proof.
  intros E M1 M2 K QN QS. unfold h_buffer_copy. wstep. eapply wp_touch; [exact M1|]. wstep. eapply wp_load; [exact M2|]. eapply buffer_put_wp; eassumption.
Qed.
Lemma in_memory_nil h : in_memory h [].
Proof. split; [constructor|intros b c []]. Qed.
(* an argument of a call *)
Ltac argument :=
  match goal with
  | |- in_memory _ [] => apply in_memory_nil
  | |- in_memory _ (oc _ None) => apply in_memory_nil
  | |- in_memory _ (oc ?c (Some ?t)) => change (oc c (Some t)) with (c t); argument
  | E : ext _ _ _ _ ?h |- in_memory ?h ?cs => first [eapply source_in_memory; [exact E|eassumption]|pull E cs; exact (made_in_memory _ _ _ _ _ _ E)]
  end.
Ltac arguments := repeat apply Forall_cons; try apply Forall_nil; argument.
Ltac keep_tac := first [assumption|eapply keeps_zeros; eassumption|pkept|match goal with KE : _ -> keeps_secret ?s _ |- keeps_secret ?s _ => apply KE; sfailed end].
Ltac call R :=
  wstep || idtac;
  at_heap ltac:(fun E => let E' := fresh "E" in let h := fresh "h" in let N := fresh "N" in let F := fresh "F" in let V := fresh "V" in
    lazymatch type of E with ext _ ?W _ _ _ => 
    eapply (op_call _ _ _ _ _ _ _ _ _ R) with (W := W); [try untested_tac| |leak_tac|exact E|arguments|try keep_tac|let F := fresh in intros F; try keep_tac|
      intros h E' [N|F]; clear E|intros ? h E' V; clear E] end).
Ltac put :=
  at_heap ltac:(fun E => let E' := fresh "E" in let h := fresh "h" in let N := fresh "N" in let F := fresh "F" in let V := fresh "V" in let B := fresh "B" in
    eapply buffer_put_wp; [exact E|assumption|intros h E' [N|F]; clear E|intros ? h E' B V; clear E]).
(* copying an argument or something that was made *)
Ltac copy b :=
  at_heap ltac:(fun E => let E' := fresh "E" in let h := fresh "h" in let N := fresh "N" in let F := fresh "F" in let V := fresh "V" in let B := fresh in
    first [match goal with M : in_memory _ (buf_cells b) |- _ => pose proof (source_bytes _ _ _ _ _ _ E M) as B end
          |pull E (buf_cells b); pose proof (new_bytes _ _ _ _ _ _ E) as B];
    eapply buffer_copy_wp; [exact E|exact (proj1 B)|exact (proj2 B)|assumption|intros h E' [N|F]; clear E; clear B|let G := fresh "B" in intros ? h E' G V; clear E; clear B]).
Lemma text_buffer_wp secret (U W : Prop) fails h0 X h len (Q : option hbuf -> heap -> Prop) :
  ext secret W h0 X h -> keeps_secret secret [] ->
  (forall h1, ext secret W h0 X h1 -> size_ok (len + 1) = false \/ buffer_fails fails -> Q None h1) ->
  (forall b h1, ext secret W h0 (buf_cells b ++ X) h1 -> b_bytes b = zeros (N.to_nat len) -> size_ok (len + 1) = true -> Q (Some b) h1) ->
  wp U fails (h_text_buffer len) h Q.
Proof.
  intros E K QN QS. unfold h_text_buffer. destruct (size_ok (len + 1)) eqn:Z; cbn [negb].
  - wstep. wstep.
    + wstep. apply QN; [assumption|right; left; assumption].
    + wstep. at_heap ltac:(fun E => eapply wp_alloc; [exact E|intros h2 E2 F; clear E|intros d h2 E2; clear E]).
      * wstep. apply QN; [assumption|right; right; assumption].
      * wstep. apply QS; [|reflexivity|reflexivity]. unfold buf_cells. cbn [b_addr b_data b_bytes]. eapply ext_perm; [|exact E2]. solve_perm.
  - wstep. apply QN; [exact E|left; reflexivity].
Qed.
Ltac text_buffer :=
  at_heap ltac:(fun E => let E' := fresh "E" in let h := fresh "h" in let N := fresh "N" in let F := fresh "F" in let B := fresh "B" in let Z := fresh "Z" in
    eapply text_buffer_wp; [exact E|assumption|intros h E' [N|F]; clear E|intros ? h E' B Z; clear E]).

Definition evp_cells (e : evp) : list cell := struct_cell (evp_pkey e) ++ struct_cell (evp_ec e).
Ltac there ::= match goal with QS : forall t h1, ext _ _ _ _ h1 -> _ -> ?Q (Some t) h1, E : ext _ _ _ _ ?h |- ?Q (Some _) ?h =>
  apply QS; [eapply ext_perm; [|exact E]; first [solve [solve_perm]|solve [unfold ck_cells, cr_cells, key_cells, sig_cells, kr_cells, km_cells, evp_cells;
    cbn [hck_addr hck_data hcr_addr hcr_iv hcr_text hcr_tag hkey_addr hkey_pub hkey_pri hsig_addr hsig_data hkr_addr hkr_meta hkr_hash hkm_addr hkm_salt hkm_info cells_opt evp_pkey evp_ec]; solve_perm]]|] end.
(* the same, without telling the outcomes apart *)
Lemma op_call_opt {T V} (cells : T -> list cell) (value : T -> V) args pure public exposed untested leak op :
  op_rule cells value args pure public exposed untested leak op ->
  forall secret (U W : Prop) fails h0 X h (Q : option T -> heap -> Prop),
    (forall n ty, In ty untested -> fails n ty = true -> U) -> (pure = UB -> U) -> (leak fails -> W) ->
    ext secret W h0 X h -> all_in_memory h args -> keeps_secret secret public -> (some_failure fails -> keeps_secret secret exposed) ->
    (forall o h1, ext secret W h0 (oc cells o ++ X) h1 -> match o with None => pure = Null \/ some_failure fails | Some t => pure = Val (value t) end -> Q o h1) ->
    wp U fails op h Q.
Proof.
  intros R secret U W fails h0 X h Q HU HB HW E M K KE QS. eapply (op_call _ _ _ _ _ _ _ _ _ R); try eassumption.
  - intros h1 E1 F. apply QS; [exact E1|exact F].
  - intros t h1 E1 F. apply QS; [exact E1|exact F].
Qed.
Lemma text_opt_wp secret (U W : Prop) fails h0 X h len (Q : option hbuf -> heap -> Prop) :
  ext secret W h0 X h -> keeps_secret secret [] ->
  (forall o h1, ext secret W h0 (oc buf_cells o ++ X) h1 ->
     match o with None => size_ok (len + 1) = false \/ some_failure fails | Some b => b_bytes b = zeros (N.to_nat len) /\ size_ok (len + 1) = true end -> Q o h1) ->
  wp U fails (h_text_buffer len) h Q.
Proof.
  intros E K QS. text_buffer.
  - apply QS; [assumption|left; assumption].
  - apply QS; [assumption|right; sfailed].
  - apply QS; [assumption|split; assumption].
Qed.
Lemma alloc_opt_wp secret (U W : Prop) fails h0 X h ty (Q : option block -> heap -> Prop) :
  ext secret W h0 X h ->
  (forall o h1, ext secret W h0 (oc struct_cell o ++ X) h1 -> match o with None => some_failure fails | Some _ => True end -> Q o h1) ->
  wp U fails (alloc ty []) h Q.
Proof. intros E QS. wstep; apply QS; try assumption; [sfailed|exact I]. Qed.
Lemma empty_opt_wp secret (U W : Prop) fails h0 X h len (Q : option hbuf -> heap -> Prop) :
  ext secret W h0 X h -> keeps_secret secret [] ->
  (forall o h1, ext secret W h0 (oc buf_cells o ++ X) h1 ->
     match o with None => size_ok len = false \/ some_failure fails | Some b => b_bytes b = zeros (N.to_nat len) /\ size_ok len = true end -> Q o h1) ->
  wp U fails (h_buffer_create_empty len) h Q.
Proof.
  intros E K QS. new_buffer.
  - apply QS; [assumption|left; assumption].
  - apply QS; [assumption|right; sfailed].
  - apply QS; [assumption|split; assumption].
Qed.
Lemma tag_opt_wp secret (U W : Prop) fails h0 X h c (Q : option hbuf -> heap -> Prop) :
  ext secret W h0 X h -> keeps_secret secret [] ->
  (forall o h1, ext secret W h0 (oc buf_cells o ++ X) h1 ->
     match o with None => is_authenticated c = false \/ some_failure fails | Some b => b_bytes b = zeros (N.to_nat (auth_tag_len c)) /\ is_authenticated c = true end -> Q o h1) ->
  wp U fails (if is_authenticated c then h_buffer_create_empty (auth_tag_len c) else hret None) h Q.
Proof.
  intros E K QS. destruct (is_authenticated c) eqn:A.
  - eapply empty_opt_wp; [exact E|exact K|]. intros o h1 E1 V. apply QS; [exact E1|]. destruct o; [destruct V; split; [assumption|reflexivity]|].
    destruct V as [V|V]; [destruct c; discriminate|right; exact V].
  - wstep. apply QS; [exact E|left; reflexivity].
Qed.
Lemma release_opt_wp secret (U W : Prop) fails h0 X h (Q : unit -> heap -> Prop) o :
  ext secret W h0 (oc buf_cells o ++ X) h -> keeps_secret secret [] -> match o with None => True | Some b => ~ secret (b_bytes b) end ->
  (forall h1, ext secret W h0 X h1 -> Q tt h1) -> wp U fails (h_buffer_destroy o) h Q.
Proof.
  intros E K N QS. destruct o as [b|]; [|apply QS; exact E]. cbn [oc] in E. eapply (proj2 buffer_destroy_rule); [exact E| |exact QS].
  split; [exact (proj1 K)|]. intros c [<-|[]]. exact N.
Qed.

Section engine.
  Context (P : prims).
  Lemma crypto_random_rule (R : rand_ok P) len s : op_rule buf_cells b_bytes [] (fst (crypto_random P len s)) [] [] buffer_kinds never_leaks_op (h_crypto_random P len s).
  Proof.
    start_op. unfold h_crypto_random. unfold crypto_random in *. destruct (INT_MAX <? len); [wstep; gone; left; reflexivity|].
    wstep. new_buffer.
    - rewrite N in HB. apply HB. reflexivity.
    - bused.
    - rewrite Z in *. cbn [negb fst] in *. destruct (p_rand P s len) as [r|] eqn:D.
      + wstep. fill b; [rewrite B, blen_zeros; exact (R _ _ _ D)|]. wstep. there. reflexivity.
      + wstep. release b; [eapply keeps_zeros; eassumption|]. wstep. gone. left. reflexivity.
  Qed.
  Lemma sha2_rule (R : sha_ok P) buffer salt d : op_rule buf_cells b_bytes [oc buf_cells buffer; oc buf_cells salt]
    (lift (sha2 P (option_map b_bytes buffer) (option_map b_bytes salt) d)) [] [] buffer_kinds never_leaks_op (h_sha2 P buffer salt d).
  Proof.
    start_op. unfold h_sha2, sha2 in *. destruct buffer as [b|]; [|wstep; gone; left; reflexivity]. cbn [option_map] in *. args.
    wstep. wstep; [wstep; gone; right; sfailed|]. rd. rdo. wstep. new_buffer.
    - rewrite digest_size_ok in N. discriminate N.
    - bused.
    - wstep. fill b1; [rewrite B, blen_zeros; apply R|]. wstep. wstep. wstep. there. reflexivity.
  Qed.

  Lemma cipher_key_random_rule (R : rand_ok P) c s : op_rule ck_cells ck_value [] (fst (cipher_key_random P c s)) [] [] [T_buffer; T_data; T_cipher_key] never_leaks_op
    (h_cipher_key_random P c s).
  Proof.
    start_op. unfold h_cipher_key_random. pose proof (crypto_random_rule R (key_len c) s) as RR. unfold cipher_key_random, mbind in *.
    destruct (crypto_random P (key_len c) s) as [r s'] eqn:D. cbn [fst] in RR. call RR.
    - intros ->. apply HB. reflexivity.
    - wstep. gone. subst r. left. reflexivity.
    - wstep. gone. right. sfailed.
    - subst r. unfold mlift, mres, cipher_key_create in *. cbn [fst] in *. wstep. unfold h_cipher_key_create. wstep.
      at_heap ltac:(fun E => pull E (buf_cells t); pose proof (new_bytes _ _ _ _ _ _ E) as B). eapply wp_touch; [exact (proj1 B)|]. destruct (blen (b_bytes t) =? key_len c); cbn [negb fst lift] in *.
      + wstep. wstep; [used|]. wstep. wstep. there. reflexivity.
      + wstep. wipe t. gone. left. reflexivity.
  Qed.

  Lemma crypto_random_val (R : rand_ok P) len s v : fst (crypto_random P len s) = Val v -> blen v = len.
  Proof.
    unfold crypto_random. destruct (INT_MAX <? len); [discriminate|]. destruct (negb (size_ok len)); [discriminate|]. cbn [fst]. intros V. apply lift_val in V. exact (R _ _ _ V).
  Qed.
  (* the nonce *)
  Definition iv_pure (c : cipher) (iv : option bytes) (s : nat) : res bytes :=
    match iv with Some v => lift (buffer_copy (Some v)) | None => fst (crypto_random P (iv_len c) s) end.
  Lemma iv_rule (R : rand_ok P) c iv s : op_rule buf_cells b_bytes [oc buf_cells iv] (iv_pure c (option_map b_bytes iv) s) [] [] (iv_untested iv) never_leaks_op
    (match iv with Some v => h_buffer_copy (Some v) | None => h_crypto_random P (iv_len c) s end).
  Proof.
    destruct iv as [v|]; cbn [iv_pure iv_untested option_map].
    - start_op. unfold buffer_copy in *. copy v.
      + gone. rewrite N. left. reflexivity.
      + gone. right. sfailed.
      + there. rewrite V, B. reflexivity.
    - intros secret U W fails h Q HU HB HW OK M K KE QN QS. apply (crypto_random_rule R (iv_len c) s secret U W); try assumption. constructor.
  Qed.
  Lemma aes256_encrypt_eq pt aad k iv s : fst (aes256_encrypt P (Some pt) aad (Some k) iv s) =
    let c := ck_cipher k in
    if (match aad with Some _ => negb (is_authenticated c) | None => false end) then Null
    else if negb (blen (ck_data k) =? key_len c) || (INT_MAX <? blen pt) then Null
    else match iv_pure c iv s with
         | UB => UB
         | Null => Null
         | Val v =>
            if negb (size_ok (blen pt + 1)) then Null
            else if blen v <? iv_len c then UB
            else if INT_MAX <? blen (obytes aad) then UB
            else
              let n := firstn (N.to_nat (iv_len c)) v in
              match c with
              | AES256_GCM =>
                  let ct := p_gcm_enc P (ck_data k) n (obytes aad) pt in
                  lift (cipher_result_create c (Some v) (Some (fst ct)) (Some (snd ct)))
              | AES256_CTR =>
                  lift (cipher_result_create c (Some v) (Some (p_ctr P (ck_data k) n pt)) None)
              end
         end.
  Proof.
    unfold aes256_encrypt. cbv zeta. destruct (match aad with Some _ => _ | None => _ end); [reflexivity|]. destruct (_ || _); [reflexivity|].
    unfold iv_pure. destruct iv as [v|]; cbn [mbind mret mres].
    - destruct (buffer_copy (Some v)) as [w|]; cbn [lift]; [|reflexivity]. unfold mbind, mret, mres. destruct (negb (size_ok _)); [reflexivity|].
      destruct (_ <? _); [reflexivity|]. destruct (_ <? _); [reflexivity|]. destruct (ck_cipher k); reflexivity.
    - unfold mbind, mtry. destruct (crypto_random P _ s) as [[w| |] s']; cbn [fst]; [|reflexivity..]. destruct (negb (size_ok _)); [reflexivity|].
      destruct (_ <? _); [reflexivity|]. destruct (_ <? _); [reflexivity|]. destruct (ck_cipher k); reflexivity.
  Qed.
  Lemma iv_public_in c iv s v : iv_pure c (option_map b_bytes iv) s = Val v -> In v (encrypt_public P c iv s).
  Proof.
    unfold iv_pure, encrypt_public, drawn. destruct iv as [x|]; cbn [option_map].
    - intros V. apply lift_val in V. unfold buffer_copy in V. apply buffer_create_same in V. left. symmetry. exact V.
    - unfold crypto_random. destruct (_ <? _); [discriminate|]. destruct (negb _); [discriminate|]. cbn [fst]. intros V. apply lift_val in V. rewrite V. left. reflexivity.
  Qed.
  Lemma encrypt_with_rule (R : rand_ok P) (A : aead_ok P) (C : ctr_ok P) pt aad c kd iv s :
    op_rule cr_cells cr_value [buf_cells pt; oc buf_cells aad; buf_cells kd; oc buf_cells iv]
      (fst (aes256_encrypt P (Some (b_bytes pt)) (option_map b_bytes aad) (Some {| ck_cipher := c; ck_data := b_bytes kd |}) (option_map b_bytes iv) s))
      (encrypt_public P c iv s) [] (encrypt_untested iv) (iv_too_long c iv)
      (h_encrypt_with P pt aad c kd iv s).
  Proof.
    start_op. rewrite aes256_encrypt_eq in *. cbv zeta in *. cbn [ck_cipher ck_data] in *. unfold h_encrypt_with.
    assert (AE : (match option_map b_bytes aad with Some _ => negb (is_authenticated c) | None => false end) =
                 (match aad with Some _ => negb (is_authenticated c) | None => false end)) by (destruct aad; reflexivity). rewrite AE in *. clear AE.
    destruct (match aad with Some _ => negb (is_authenticated c) | None => false end) eqn:AA; [wstep; gone; left; reflexivity|]. rd. rd.
    destruct (negb (blen (b_bytes kd) =? key_len c) || (INT_MAX <? blen (b_bytes pt))) eqn:LL; [wstep; gone; left; reflexivity|].
    wstep. eapply op_call_opt; [exact (iv_rule R c iv s)|intros n ty I F; apply (HU n ty); [right; exact I|exact F]|intros V; apply HB; rewrite V; reflexivity|intros []|exact E|arguments|exact K0|intros _; exact K0|].
    clear E. intros iv_f h1 E1 VI. wstep.
    apply (text_opt_wp secret U W fails h _ h1 _ _ E1 K0). clear E1. intros text h2 E2 VT. wstep.
    apply (alloc_opt_wp secret U W fails h _ h2 _ _ E2). clear E2. intros ctx h3 E3 VC. wstep.
    apply (tag_opt_wp secret U W fails h _ h3 _ _ E3 K0). clear E3. intros tag h4 E4 VG.
    assert (ERR : (iv_pure c (option_map b_bytes iv) s = Null \/ size_ok (blen (b_bytes pt) + 1) = false \/ some_failure fails) ->
       wp U fails (h_buffer_destroy tag ;;; h_buffer_destroy text ;;; h_buffer_destroy iv_f ;;; h_free_opt ctx ;;; hret None)%h h4 Q).
    { intros ST. wstep. apply (release_opt_wp secret U W fails h _ h4 _ tag E4 K0); [destruct tag; [destruct VG as (VG & _); rewrite VG; apply (proj1 K0)|exact I]|].
      clear E4. intros h5 E5. wstep. apply (release_opt_wp secret U W fails h _ h5 _ text (ext_perm _ _ _ _ _ _ (HeapFacts.perm_swap _ _ _) E5) K0); [destruct text; [destruct VT as (VT & _); rewrite VT; apply (proj1 K0)|exact I]|].
      clear E5. intros h6 E6. wstep. apply (release_opt_wp secret U W fails h _ h6 _ iv_f (ext_perm _ _ _ _ _ _ (HeapFacts.perm_swap _ _ _) E6) K0); [destruct iv_f; [apply (proj2 K); exact (iv_public_in _ _ _ _ VI)|exact I]|].
      clear E6. intros h7 E7. wstep. destruct ctx as [x|]; cbn [h_free_opt oc] in *; wstep; try wstep.
      all: apply QN; [assumption|]. all: destruct ST as [ST|[ST|ST]]; [left; rewrite ST; reflexivity| |right; exact ST].
      all: destruct iv_f; [left; rewrite VI, ST; reflexivity|]. all: destruct VI as [VI|VI]; [left; rewrite VI; reflexivity|right; exact VI]. }
    assert (ERR1 : (iv_f = None \/ text = None \/ ctx = None \/ is_authenticated c = true /\ tag = None) ->
      iv_pure c (option_map b_bytes iv) s = Null \/ size_ok (blen (b_bytes pt) + 1) = false \/ some_failure fails).
    { intros [->|[->|[->|(T & ->)]]].
      - destruct VI; auto.
      - destruct VT; auto.
      - auto.
      - destruct VG; [congruence|auto]. }
    destruct (is_authenticated c && match tag with Some _ => false | None => true end) eqn:TG.
    { apply ERR. apply ERR1. destruct tag; [rewrite andb_false_r in TG; discriminate TG|]. rewrite andb_true_r in TG. auto. }
    destruct iv_f as [v|]; [|apply ERR, ERR1; auto]. destruct text as [t|]; [|apply ERR, ERR1; auto]. destruct ctx as [x|]; [|apply ERR, ERR1; auto].
    clear ERR ERR1. destruct VT as (VT & Z). rewrite VI, Z in *. cbn [negb oc] in *.
    rdo. wstep. wbytes.
    destruct (blen (b_bytes v) <? iv_len c) eqn:LI; [apply HB; reflexivity|].
    assert (OB : obytes (option_map b_bytes aad) = match aad with Some a => b_bytes a | None => [] end) by (destruct aad; reflexivity).
    destruct (INT_MAX <? blen (obytes (option_map b_bytes aad))); [apply HB; reflexivity|].
    set (ad := obytes (option_map b_bytes aad)) in *. clearbody ad. set (n := firstn (N.to_nat (iv_len c)) (b_bytes v)) in *. clearbody n.
    assert (LW : blen (b_bytes v) =? iv_len c = false -> W).
    { intros L. apply HW. unfold iv_too_long. destruct iv as [w|]; cbn [option_map iv_pure] in VI.
      - exists w. split; [reflexivity|]. apply lift_val in VI. unfold buffer_copy in VI. apply buffer_create_same in VI. rewrite <- VI. lia.
      - exfalso. apply (crypto_random_val R) in VI. lia. }
    destruct c; cbn [is_authenticated andb] in *.
    - destruct tag as [g|]; [|discriminate TG]. cbn [oc] in *. destruct VG as (VG & _). cbn [auth_tag_len] in *.
      destruct (A (b_bytes kd) n ad (b_bytes pt)) as (A1 & A2 & _). destruct (p_gcm_enc P (b_bytes kd) n ad (b_bytes pt)) as (ct & tg). cbn [fst snd] in *.
      wstep. fill t; [rewrite VT, blen_zeros; unfold blen; rewrite A1; reflexivity|].
      wstep. fill g; [rewrite VG, blen_zeros; unfold blen; rewrite A2; reflexivity|].
      wstep. wstep. unfold h_cipher_result_create. unfold cipher_result_create in *. cbn [is_authenticated andb iv_len auth_tag_len] in *.
      match goal with |- context [Some {| b_addr := b_addr t; b_data := b_data t; b_bytes := _ |}] => set (t' := {| b_addr := b_addr t; b_data := b_data t; b_bytes := _ |}) in * end.
      match goal with |- context [Some {| b_addr := b_addr g; b_data := b_data g; b_bytes := _ |}] => set (g' := {| b_addr := b_addr g; b_data := b_data g; b_bytes := _ |}) in * end.
      wstep. at_heap ltac:(fun E => pull E (buf_cells v); pose proof (new_bytes _ _ _ _ _ _ E) as Bv). eapply wp_touch; [exact (proj1 Bv)|].
      destruct (blen (b_bytes v) =? 12); cbn [negb] in *.
      + wstep. at_heap ltac:(fun E => pull E (buf_cells g'); pose proof (new_bytes _ _ _ _ _ _ E) as Bg). eapply wp_touch; [exact (proj1 Bg)|].
        assert (G16 : blen tg =? 16 = true) by (unfold blen; rewrite A2; reflexivity). cbn [g' b_bytes]. rewrite G16 in *. cbn [negb lift] in *.
        wstep. wstep; [used|]. wstep. there. reflexivity.
      + specialize (LW eq_refl). wstep. apply QN; [|left; reflexivity].
        match goal with E : ext _ _ _ _ _ |- _ => do 3 (apply ext_leak in E; [|exact LW]); exact E end.
    - destruct tag as [g|]; [destruct VG; discriminate|]. cbn [oc app] in *.
      destruct (C (b_bytes kd) n (b_bytes pt)) as (A1 & _).
      wstep. fill t; [rewrite VT, blen_zeros; unfold blen; rewrite A1; reflexivity|].
      wstep. wstep. unfold h_cipher_result_create. unfold cipher_result_create in *. cbn [is_authenticated andb iv_len auth_tag_len] in *.
      match goal with |- context [Some {| b_addr := b_addr t; b_data := b_data t; b_bytes := _ |}] => set (t' := {| b_addr := b_addr t; b_data := b_data t; b_bytes := _ |}) in * end.
      wstep. at_heap ltac:(fun E => pull E (buf_cells v); pose proof (new_bytes _ _ _ _ _ _ E) as Bv). eapply wp_touch; [exact (proj1 Bv)|].
      destruct (blen (b_bytes v) =? 16); cbn [negb lift] in *.
      + wstep. wstep; [used|]. wstep. there. reflexivity.
      + specialize (LW eq_refl). wstep. apply QN; [|left; reflexivity].
        match goal with E : ext _ _ _ _ _ |- _ => do 2 (apply ext_leak in E; [|exact LW]); exact E end.
  Qed.
  Lemma aes256_encrypt_rule (R : rand_ok P) (A : aead_ok P) (C : ctr_ok P) pt aad k iv s :
    op_rule cr_cells cr_value [oc buf_cells pt; oc buf_cells aad; oc ck_cells k; oc buf_cells iv]
      (fst (aes256_encrypt P (option_map b_bytes pt) (option_map b_bytes aad) (option_map ck_value k) (option_map b_bytes iv) s))
      (match k with Some x => encrypt_public P (hck_cipher x) iv s | None => [] end) [] (encrypt_untested iv)
      (match k with Some x => iv_too_long (hck_cipher x) iv | None => never_leaks_op end)
      (h_aes256_encrypt P pt aad k iv s).
  Proof.
    start_op. unfold h_aes256_encrypt. destruct pt as [p|]; [|wstep; gone; left; reflexivity]. destruct k as [k|]; [|wstep; gone; left; reflexivity].
    cbn [option_map] in *. args. wstep. wstep. call (encrypt_with_rule R A C p aad (hck_cipher k) (hck_data k) iv s); try assumption.
    - gone. left. assumption.
    - gone. right. sfailed.
    - there. assumption.
  Qed.

  Lemma aes256_decrypt_rule (A : aead_len_ok P) (C : ctr_ok P) r aad k only draft :
    op_rule buf_cells b_bytes [oc cr_cells r; oc buf_cells aad; oc ck_cells k]
      (aes256_decrypt P (option_map cr_value r) (option_map b_bytes aad) (option_map ck_value k) only) [] [] [] never_leaks_op
      (h_aes256_decrypt P r aad k only draft).
  Proof.
    start_op. unfold h_aes256_decrypt, aes256_decrypt in *. destruct r as [[ra rc riv rtext rtag]|]; [|wstep; gone; left; reflexivity]. destruct k as [[ka kc kd]|]; [|wstep; gone; left; reflexivity].
    unfold cr_value, ck_value in *. cbn [option_map hcr_addr hcr_cipher hcr_iv hcr_text hcr_tag hck_addr hck_cipher hck_data cr_cipher cr_iv cr_text cr_tag ck_cipher ck_data] in *. args.
    cbn [hcr_addr hcr_cipher hcr_iv hcr_text hcr_tag hck_addr hck_cipher hck_data] in *.
    wstep. wstep. destruct rtext as [text|]; [|wstep; gone; left; reflexivity]. cbn [option_map cells_opt] in *. cbv zeta in *.
    destruct (only && negb (is_authenticated rc)); [wstep; gone; left; reflexivity|].
    assert (AE : (match option_map b_bytes aad with Some _ => negb (is_authenticated rc) | None => false end) =
                 (match aad with Some _ => negb (is_authenticated rc) | None => false end)) by (destruct aad; reflexivity). rewrite AE in *. clear AE.
    destruct (match aad with Some _ => negb (is_authenticated rc) | None => false end); [wstep; gone; left; reflexivity|].
    wstep. wstep. rd. destruct (negb (cipher_id kc =? cipher_id rc) || (INT_MAX <? blen (b_bytes text))); [wstep; gone; left; reflexivity|].
    assert (MT : in_memory h (oc buf_cells rtag)) by (destruct rtag; assumption || apply in_memory_nil). rdo.
    destruct (is_authenticated rc && _) eqn:AU; [wstep; gone; left; reflexivity|].
    wstep. apply (alloc_opt_wp secret U W fails h _ _ _ _ E). clear E. intros ctx h1 E1 VC. wstep.
    apply (empty_opt_wp secret U W fails h _ h1 _ _ E1 K0). clear E1. intros o h2 E2 VO.
    destruct ctx as [x|].
    2:{ cbn [oc app] in E2. destruct o as [o|]; cbn [oc h_free_opt] in *; wstep; [wipe o|apply wp_ret]; wstep; wstep; wstep; gone; right; exact VC. }
    destruct o as [o|].
    2:{ wstep. apply wp_ret. wstep. cbn [h_free_opt oc app] in *. wstep. wstep. gone. destruct VO as [VO|VO]; [left; rewrite VO; reflexivity|right; exact VO]. }
    destruct VO as (VO & Z). cbn [oc] in *. rewrite Z in *. cbn [negb] in *. rd. rd. rdo.
    destruct ((blen (b_bytes kd) <? key_len rc) || (blen (b_bytes riv) <? iv_len rc)); [apply HB; reflexivity|].
    destruct rc.
    - match goal with |- context [p_gcm_dec ?a1 ?a2 ?a3 ?a4 ?a5 ?a6] => destruct (p_gcm_dec a1 a2 a3 a4 a5 a6) as [pt|] eqn:D end; cbn [lift] in *.
      + wstep. fill o; [rewrite VO, blen_zeros; unfold blen; rewrite (A _ _ _ _ _ _ D); reflexivity|]. wstep. wstep. wstep. there. reflexivity.
      + wstep. fill o; [rewrite VO, blen_zeros; apply blen_fit|]. wstep.
        match goal with |- context [Some ?b] => wipe b end. wstep. wstep. wstep. gone. left. reflexivity.
    - wstep. fill o; [rewrite VO, blen_zeros; unfold blen; rewrite (proj1 (C _ _ _)); reflexivity|]. wstep. wstep. wstep. there. reflexivity.
  Qed.
  Lemma hmac_create_rule (R : hmac_ok P) data key d : op_rule buf_cells b_bytes [oc buf_cells data; oc buf_cells key]
    (lift (hmac_create P (option_map b_bytes data) (option_map b_bytes key) d)) [] [] [] never_leaks_op (h_hmac_create P data key d).
  Proof.
    start_op. unfold h_hmac_create, hmac_create in *. destruct data as [x|]; [|wstep; gone; left; reflexivity]. destruct key as [k|]; [|wstep; gone; left; reflexivity].
    cbn [option_map] in *. cbv zeta in *. args. replace (blen (p_hmac P d (b_bytes k) (b_bytes x)) =? digest_size d) with true in * by (rewrite R; symmetry; apply N.eqb_refl).
    cbn [negb lift] in *. wstep. new_buffer.
    - rewrite digest_size_ok in N. discriminate N.
    - wstep. gone. right. sfailed.
    - rd. rd. wstep. fill b; [rewrite B, blen_zeros; apply R|]. wstep. there. reflexivity.
  Qed.
  Lemma hkdf_internal_rule (R : hkdf_ok P) ikm salt info d len expand : op_rule buf_cells b_bytes [oc buf_cells ikm; oc buf_cells salt; oc buf_cells info]
    (lift (hkdf_internal P (option_map b_bytes ikm) (option_map b_bytes salt) (option_map b_bytes info) d len expand)) [] [] [] never_leaks_op
    (h_hkdf_internal P ikm salt info d len expand).
  Proof.
    start_op. unfold h_hkdf_internal, hkdf_internal in *. destruct ikm as [key|]; [|wstep; gone; left; reflexivity]. cbn [option_map] in *. args.
    rdo. destruct (match option_map b_bytes info with Some i => 1024 <? blen i | None => false end); [wstep; gone; left; reflexivity|].
    rdo. destruct (match option_map b_bytes salt with Some i => INT_MAX <? blen i | None => false end); [wstep; gone; left; reflexivity|].
    rd. destruct (INT_MAX <? blen (b_bytes key)); [wstep; gone; left; reflexivity|].
    wstep. wstep; [wstep; gone; right; sfailed|]. wstep. new_buffer.
    - wstep. gone. left. rewrite N. reflexivity.
    - wstep. gone. right. sfailed.
    - rewrite Z in *. cbn [negb] in *. wstep. wstep.
      match goal with |- wp _ _ (match ?x with _ => _ end) _ _ => destruct x as [v|] eqn:D end; cbn [lift] in *.
      + wstep. fill b0; [rewrite B, blen_zeros; destruct expand; [exact (proj2 R _ _ _ _ _ D)|exact (proj1 R _ _ _ _ _ _ D)]|]. wstep. there. reflexivity.
      + wstep. release b0; [keep_tac|]. wstep. gone. left. reflexivity.
  Qed.
  (* keys *)
  Lemma evp_private_rule b : op_rule evp_cells evp_pub [] (match p_d2i P b with Some (pub, _) => Val pub | None => Null end) [] [] [] some_failure (h_evp_private P b).
  Proof.
    start_op. unfold h_evp_private. destruct (p_d2i P b) as [(pub & der)|]; [|wstep; gone; left; reflexivity].
    wstep. wstep; [wstep; gone; right; sfailed|]. wstep. wstep.
    - assert (F : some_failure fails) by sfailed. wstep. apply QN; [eapply ext_leak; [exact (HW F)|eassumption]|right; exact F].
    - wstep. there. reflexivity.
  Qed.
  Lemma evp_public_rule b : op_rule evp_cells evp_pub [] (lift (evp_public_key_from_buffer P b)) [] [] [] never_leaks_op (h_evp_public P b).
  Proof.
    start_op. unfold h_evp_public, evp_public_key_from_buffer in *. destruct b as [|c [|x r]]; [wstep; gone; left; reflexivity..|].
    destruct (curve_find (b2n c)) as [[]|]; [|wstep; gone; left; reflexivity].
    wstep. wstep; [wstep; gone; right; sfailed|]. destruct (p_o2i P (x :: r)) as [pub|]; cbn [lift] in *.
    - wstep. wstep; [wstep; gone; right; sfailed|]. wstep. there. reflexivity.
    - wstep. wstep. wstep. gone. left. reflexivity.
  Qed.
  Lemma evp_free_wp secret (U W : Prop) fails h0 X h e (Q : unit -> heap -> Prop) : keeps_secret secret [] ->
    ext secret W h0 (evp_cells e ++ X) h -> (forall h1, ext secret W h0 X h1 -> Q tt h1) -> wp U fails (h_evp_free e) h Q.
  Proof. intros K E QS. unfold h_evp_free. unfold evp_cells in E. norm E. wstep. wstep. wstep. apply QS. assumption. Qed.
End engine.
Ltac evp_free e :=
  at_heap ltac:(fun E => pull E (evp_cells e); let E' := fresh "E" in let h := fresh "h" in
    eapply evp_free_wp; [eassumption|exact E|intros h E'; clear E]).
(* answers *)
Definition answer_rule (args : list (list cell)) (pure : bool) (untested : list ctype) (leak : schedule -> Prop) (op : H bool) : Prop :=
  forall secret (U W : Prop) fails h (Q : bool -> heap -> Prop),
    (forall n ty, In ty untested -> fails n ty = true -> U) -> (leak fails -> W) ->
    heap_ok h -> all_in_memory h args -> keeps_secret secret [] ->
    (forall b h1, ext secret W h [] h1 -> b = pure \/ b = false /\ some_failure fails -> Q b h1) ->
    wp U fails op h Q.
Lemma answer_call args pure untested leak op : answer_rule args pure untested leak op ->
  forall secret (U W : Prop) fails h0 X h (Q : bool -> heap -> Prop),
    (forall n ty, In ty untested -> fails n ty = true -> U) -> (leak fails -> W) ->
    ext secret W h0 X h -> all_in_memory h args -> keeps_secret secret [] ->
    (forall b h1, ext secret W h0 X h1 -> b = pure \/ b = false /\ some_failure fails -> Q b h1) ->
    wp U fails op h Q.
Proof.
  intros R secret U W fails h0 X h Q HU HW E M K QS. eapply R with (W := W); try eassumption.
  - eapply ext_ok; exact E.
  - intros b h1 E1 F. apply QS; [|exact F]. exact (ext_trans _ _ _ _ _ _ _ E E1).
Qed.
Lemma answer_sound args pure untested leak op : answer_rule args pure untested leak op -> answers_in_memory args pure untested leak op.
Proof.
  intros R secret fails h OK M K.
  pose (Q := fun (b : bool) h' => exists leaked, (leaked = [] \/ leak fails) /\ grown h leaked h' /\ wiped secret h h' /\ (b = pure \/ b = false /\ some_failure fails)).
  assert (G : wp (exists n ty, In ty untested /\ fails n ty = true) fails op h Q).
  { eapply R with (W := leak fails); try eassumption.
    - intros n ty I F. exists n, ty. split; assumption.
    - auto.
    - intros b h1 (L & A & E) F. rewrite app_nil_r in E. destruct (ext0_grown _ _ _ _ E) as (G & B). exists L. repeat (split; [assumption|]). exact F. }
  unfold wp in G. destruct (op fails h) as [[b h']|]; exact G.
Qed.
Ltac start_answer := intros secret U W fails h Q HU HW OK M K QS; pose proof (ext_start secret W h OK) as E; pose proof K as K0; args.
Ltac said := match goal with QS : forall b h1, ext _ _ _ _ h1 -> _ -> ?Q b h1, E : ext _ _ _ _ ?h |- ?Q _ ?h => apply QS; [exact E|] end.

Section engine2.
  Context (P : prims).
  Lemma hmac_verify_rule (R : hmac_ok P) data key d expected : answer_rule [oc buf_cells data; oc buf_cells key; oc buf_cells expected]
    (hmac_verify P (option_map b_bytes data) (option_map b_bytes key) d (option_map b_bytes expected)) [] (fun _ => expected = None) (h_hmac_verify P data key d expected).
  Proof.
    start_answer. unfold h_hmac_verify, hmac_verify in *. call (hmac_create_rule P R data key d).
    - intros V. destruct (lift_ub _ V).
    - apply lift_null in N. rewrite N in *. destruct expected; wstep; said; left; reflexivity.
    - destruct expected; wstep; said; right; split; try reflexivity; sfailed.
    - apply lift_val in V. rewrite V in *. destruct expected as [e|]; cbn [option_map] in *.
      + args. rd. rd. wstep. wipe t. wstep. said. left. reflexivity.
      + wstep. apply QS; [eapply ext_leak; [apply HW; reflexivity|exact E0]|left; reflexivity].
  Qed.
  Lemma ec_rand_key_eq c s : fst (ec_rand_key P c s) =
    match p_ec_gen P s with
    | None => Null
    | Some (pub, pri) => match buffer_create pri with
                         | None => Null
                         | Some q => match buffer_create (n2b (curve_id c) :: pub) with
                                     | None => Null
                                     | Some p => Val {| ek_curve := c; ek_pub := p; ek_pri := Some q |}
                                     end
                         end
    end.
  Proof.
    unfold ec_rand_key, ec_pri_key_to_buffer, ec_pub_key_to_buffer. destruct (p_ec_gen P s) as [(pub & pri)|]; [|reflexivity]. cbn [fst].
    destruct (buffer_create pri); [|reflexivity]. destruct (buffer_create (n2b (curve_id c) :: pub)); reflexivity.
  Qed.
  Lemma ec_rand_key_rule c s : op_rule key_cells key_value [] (fst (ec_rand_key P c s)) [] [] [T_openssl; T_ec_key] never_leaks_op (h_ec_rand_key P c s).
  Proof.
    rewrite ec_rand_key_eq. start_op. unfold h_ec_rand_key. wstep. wstep; [used|]. destruct (p_ec_gen P s) as [(pub & pri)|]; [|wstep; wstep; wstep; gone; left; reflexivity].
    wstep. put.
    - wstep. gone. left. rewrite N. reflexivity.
    - wstep. gone. right. sfailed.
    - rewrite V in *. wstep. put.
      + wstep. wstep. wipe b0. gone. left. rewrite N. reflexivity.
      + wstep. wstep. wipe b0. gone. right. sfailed.
      + rewrite V0 in *. wstep. wstep. wstep. unfold h_ec_key_create. wstep. wstep; [used|]. wstep. wstep. there.
        unfold key_value. cbn [hkey_curve hkey_pub hkey_pri option_map]. rewrite B, B0. reflexivity.
  Qed.
  Lemma ec_sign_rule (R : sign_ok P) key data d s : op_rule sig_cells sig_value [oc key_cells key; oc buf_cells data]
    (fst (ec_sign P (option_map key_value key) (option_map b_bytes data) d s)) [] [] [T_openssl; T_ecdsa_result] (sign_leak P key) (h_ec_sign P key data d s).
  Proof.
    start_op. unfold h_ec_sign, ec_sign in *. destruct key as [[ka kc kp kq]|]; [|wstep; gone; left; reflexivity]. destruct data as [x|]; [|wstep; gone; left; reflexivity].
    unfold key_value in *. cbn [option_map hkey_addr hkey_curve hkey_pub hkey_pri ek_curve ek_pub ek_pri] in *. args. cbn [hkey_addr hkey_curve hkey_pub hkey_pri] in *.
    wstep. wstep. destruct kq as [q|]; cbn [option_map cells_opt] in *; [|wstep; gone; left; reflexivity].
    wstep. wstep; [used|]. rd. wstep. pose proof (evp_private_rule P (b_bytes q)) as RE. destruct (p_d2i P (b_bytes q)) as [(pub & der)|] eqn:D; cbn [fst] in *.
    - eapply (op_call _ _ _ _ _ _ _ _ _ RE); [intros n ty []|discriminate|intros F; apply HW; left; exact F|exact E0|constructor|exact K0|intros; exact K0| |].
      + clear E0. intros h2 E2 [N|F]; [discriminate N|]. wstep. apply QN; [eapply ext_leak; [apply HW; left; exact F|exact E2]|right; exact F].
      + clear E0. intros e h2 E2 V. rd. destruct (p_sign P d (b_bytes q) (b_bytes x) s) as [sg|] eqn:S.
        * unfold ecdsa_result_create, buffer_create in *. assert (Z : size_ok (blen sg) = true).
          { destruct (R d pub (b_bytes q) _ s sg (ex_intro _ der D) S) as (_ & L). unfold size_ok, blen, MAX_BUFFER_SIZE. lia. }
          wstep. put.
          -- unfold buffer_create in N. rewrite Z in N. discriminate N.
          -- unfold h_digest_ctx_destroy. wstep. wstep. evp_free e. gone. right. sfailed.
          -- wstep. unfold h_digest_ctx_destroy. wstep. wstep. evp_free e. wstep. unfold h_ecdsa_result_create. wstep. wstep; [used|]. wstep. wstep. there.
             unfold sig_value. cbn [hsig_curve hsig_digest hsig_data lift]. rewrite B. reflexivity.
        * unfold h_digest_ctx_destroy. wstep. wstep. wstep. evp_free e. wstep. gone. left. reflexivity.
    - eapply (op_call _ _ _ _ _ _ _ _ _ RE); [intros n ty []|discriminate|intros F; apply HW; left; exact F|exact E0|constructor|exact K0|intros; exact K0| |].
      + clear E0. intros h2 E2 F. wstep. apply QN; [eapply ext_leak; [apply HW; right; eexists; exists q; split; [reflexivity|split; [reflexivity|exact D]]|exact E2]|left; reflexivity].
      + intros e h2 E2 V. discriminate V.
  Qed.
  Lemma ec_verify_rule sig key data : answer_rule [oc sig_cells sig; oc key_cells key; oc buf_cells data]
    (ec_verify P (option_map sig_value sig) (option_map key_value key) (option_map b_bytes data)) [T_openssl] never_leaks_op (h_ec_verify P sig key data).
  Proof.
    start_answer. unfold h_ec_verify, ec_verify in *. destruct sig as [[sa sc sd sb]|]; [|wstep; said; left; reflexivity]. destruct key as [[ka kc kp kq]|]; [|wstep; said; left; reflexivity].
    destruct data as [x|]; [|wstep; said; left; reflexivity]. unfold key_value, sig_value in *.
    cbn [option_map hkey_addr hkey_curve hkey_pub hkey_pri ek_curve ek_pub ek_pri hsig_addr hsig_curve hsig_digest hsig_data es_digest es_sig] in *. args.
    cbn [hkey_addr hkey_curve hkey_pub hkey_pri hsig_addr hsig_data] in *. wstep. wstep. wstep. wstep. wstep. wstep; [used|]. rd. wstep.
    call (evp_public_rule P (b_bytes kp)).
    - intros V. destruct (lift_ub _ V).
    - apply lift_null in N. rewrite N in *. wstep. wstep. wstep. said. left. reflexivity.
    - wstep. wstep. wstep. said. right. split; [reflexivity|sfailed].
    - apply lift_val in V. rewrite V in *. rd. rd. unfold h_digest_ctx_destroy. wstep. wstep. wstep. evp_free t. wstep. said. left. reflexivity.
  Qed.
  Lemma gen_shared_secret_rule local peer : op_rule buf_cells b_bytes [oc key_cells local; oc key_cells peer]
    (lift (gen_shared_secret P (option_map key_value local) (option_map key_value peer))) [] [] [] some_failure (h_gen_shared_secret P local peer).
  Proof.
    start_op. unfold h_gen_shared_secret, gen_shared_secret in *. destruct local as [[la lc lp lq]|]; [|wstep; gone; left; reflexivity]. destruct peer as [[pa pc pp pq]|]; [|wstep; gone; left; reflexivity].
    unfold key_value in *. cbn [option_map hkey_addr hkey_curve hkey_pub hkey_pri ek_curve ek_pub ek_pri] in *. args. cbn [hkey_addr hkey_curve hkey_pub hkey_pri] in *.
    wstep. wstep. wstep. wstep. destruct lq as [q|]; cbn [option_map cells_opt] in *; [|wstep; gone; left; reflexivity]. rd.
    pose proof (evp_private_rule P (b_bytes q)) as RE. destruct (p_d2i P (b_bytes q)) as [(pub & der)|] eqn:D.
    2:{ wstep. eapply (op_call _ _ _ _ _ _ _ _ _ RE); [intros n ty []|discriminate|exact HW|exact E|constructor|exact K0|intros; exact K0| |].
        - clear E. intros h2 E2 F. wstep. gone. left. reflexivity.
        - intros e h2 E2 V. discriminate V. }
    wstep. eapply (op_call _ _ _ _ _ _ _ _ _ RE); [intros n ty []|discriminate|exact HW|exact E|constructor|exact K0|intros; exact K0| |].
    { clear E. intros h2 E2 [F|F]; [discriminate F|]. wstep. gone. right. exact F. }
    clear E. intros e h2 E2 V. rd. call (evp_public_rule P (b_bytes pp)).
    - intros V1. destruct (lift_ub _ V1).
    - apply lift_null in N. evp_free e. gone. left. rewrite N. reflexivity.
    - evp_free e. gone. right. sfailed.
    - apply lift_val in V0. rewrite V0 in *. wstep. wstep.
      + wstep. evp_free e. evp_free t. gone. right. sfailed.
      + cbv zeta. destruct (p_ecdh P (b_bytes q) (evp_pub t)) as [sec|]; cbn [lift] in *.
        * wstep. put.
          -- wstep. evp_free e. wstep. evp_free t. wstep. gone. left. rewrite N. reflexivity.
          -- wstep. evp_free e. wstep. evp_free t. wstep. gone. right. sfailed.
          -- wstep. wstep. evp_free e. wstep. evp_free t. wstep. wstep. there. rewrite V1, B. reflexivity.
        * wstep. wstep. evp_free e. wstep. evp_free t. wstep. wstep. gone. left. reflexivity.
  Qed.
End engine2.
