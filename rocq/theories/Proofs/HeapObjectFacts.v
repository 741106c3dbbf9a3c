(* Rules for the create, copy and destroy functions of buffers, keys, ciphertexts, arrays, ... *)
From Verif.Base Require Import Bytes.
From Verif.Model Require Import Buffer Cipher Ecdsa Kdf Fingerprint Heap HeapObjects.
From Verif.Spec Require Import HeapSpec HeapObjectSpec BufferSpec CopySpec.
From Verif.Proofs Require Import BufferFacts HeapFacts.
From Coq Require Import Permutation ZifyBool ZifyNat ZifyN.

(* copy and destroy functions with their rules, found by type class search *)
Class Copies {T V} (copy : option T -> H (option T)) (cells : T -> list cell) (value : T -> V) (keep : V -> V) (rel : V -> V -> Prop)
  (made : V -> Prop) (public : V -> list bytes) (untested : list ctype) (leaky lossy : bool) : Prop :=
  copy_has : copy_rule cells value keep rel made public untested leaky lossy copy.
Class Destroys {T V} (destroy : option T -> H unit) (cells : T -> list cell) (value : T -> V) (public : V -> list bytes) : Prop :=
  destroy_has : destroy_rule cells value public destroy.
Notation exact_copy := (fun v v' => v' = v).
#[global] Hint Mode Copies ! - ! - - - - - - - - - : typeclass_instances.
#[global] Hint Mode Destroys ! - ! - - - : typeclass_instances.

Lemma copy_null {T V} copy cells value keep rel made public untested leaky lossy
  (C : @copy_rule T V cells value keep rel made public untested leaky lossy copy)
  (U : Prop) fails h (Q : option T -> heap -> Prop) : Q None h -> wp U fails (copy None) h Q.
Proof. intros G. unfold wp. rewrite (proj1 C). exact G. Qed.
Lemma destroy_null {T V} destroy cells value public (C : @destroy_rule T V cells value public destroy) (U : Prop) fails h (Q : unit -> heap -> Prop) :
  Q tt h -> wp U fails (destroy None) h Q.
Proof. intros G. unfold wp. rewrite (proj1 C). exact G. Qed.
Lemma buf_live secret W h0 X h b : ext secret W h0 (buf_cells b ++ X) h -> mem h (b_addr b) = Some [].
Proof. intros E. unfold buf_cells in E. rewrite <- app_assoc in E. exact (ext_live _ _ _ _ _ _ _ E). Qed.
Lemma len_real v n : blen v = n -> (0 < n <= 32)%N -> real v.
Proof. intros <- L. unfold real, within_limit, library_limit. lia. Qed.

(* the structure of an object in memory *)
Ltac memory :=
  repeat match goal with
  | M : in_memory _ (_ ++ _) |- _ => apply in_memory_app in M; destruct M
  | M : in_memory _ (struct_cell _) |- _ => apply in_memory_struct in M
  end.
Ltac live :=
  match goal with
  | E : ext _ _ ?h0 _ ?h, M : mem ?h0 ?a = Some _ |- mem ?h ?a = Some _ => exact (ext_source _ _ _ _ _ _ _ E M)
  | E : ext _ _ _ _ ?h |- mem ?h (b_addr ?b) = Some _ => pull E (buf_cells b); exact (buf_live _ _ _ _ _ _ E)
  | E : ext _ _ _ _ ?h |- mem ?h ?a = Some _ => pull E (struct_cell a); exact (ext_live _ _ _ _ _ _ _ E)
  end.
(* a copy that lacks something has no other bytes than the original *)
Class PlainRel {V} (rel : V -> V -> Prop) (plain : V -> list bytes) : Prop := plain_rel : forall v v', rel v v' -> incl (plain v') (plain v).
Create HintDb plains.
#[export] Hint Unfold nothing key_copy_plain km_copy_plain kr_copy_plain : plains.
Arguments sig_plain : simpl never.
Arguments cr_plain : simpl never.
Arguments km_plain : simpl never.
Arguments kr_plain : simpl never.
Arguments fp_plain : simpl never.

(* membership in a list known up to parts *)
Ltac in_tac :=
  rewrite ?in_app_iff; cbn;
  first [reflexivity|assumption|symmetry; assumption|contradiction|congruence|left; solve [in_tac]|right; solve [in_tac]].
Ltac split_or I := repeat match type of I with _ \/ _ => destruct I as [I|I] end; try contradiction.
Ltac untested_tac :=
  match goal with
  | HU : forall n ty, _ -> _ n ty = true -> ?U |- forall n ty, _ -> _ n ty = true -> ?U =>
      let n := fresh in let ty := fresh in let I := fresh in let F := fresh in
      intros n ty I F; apply (HU n ty); [cbn in I; split_or I; subst; in_tac|exact F]
  | HU : forall n ty, _ -> _ n ty = true -> ?U, F : exists n, _ = true |- ?U =>
      let n := fresh in let G := fresh in destruct F as (n & G); eapply HU; [|exact G]; in_tac
  end.
Ltac kept :=
  match goal with
  | K : keeps_secret ?s _ |- keeps_secret ?s _ =>
      refine (keeps_sub _ _ _ K _);
      let c := fresh in let I := fresh in
      intros c I; cbv beta in I;
      repeat match goal with
      | V : ?v ?a = ?v _ |- _ => rewrite V in I; clear V
      | R : ?r (?v _) (?v ?a), J : In c (?p (?v ?a)) |- _ => apply (plain_rel (rel := r) (plain := p) _ _ R) in J
      end;
      autounfold with plains in *; cbn in I; rewrite ?in_app_iff in I; cbn in I; split_or I; subst; solve [in_tac]
  | K : keeps_secret ?s _ |- ~ ?s (zeros _) => exact (proj1 K _)
  | K : keeps_secret ?s _ |- ~ ?s [] => exact (proj1 K 0)
  | K : keeps_secret ?s _ |- ~ ?s _ => apply (proj2 K); solve [in_tac]
  end.
Create HintDb made.
#[export] Hint Unfold key_len iv_len auth_tag_len is_authenticated : made.
Ltac len_tac :=
  repeat match goal with
  | H : context [negb _] |- _ => progress cbn [negb] in H
  | H : negb _ = true |- _ => apply Bool.negb_true_iff in H
  | H : negb _ = false |- _ => apply Bool.negb_false_iff in H
  | H : (_ =? _)%N = true |- _ => apply N.eqb_eq in H
  | H : (_ =? _)%N = false |- _ => apply N.eqb_neq in H
  end.
(* opening [made], and closing [real] and the like from what it says *)
Ltac open_made Z :=
  (lazymatch type of Z with ?m _ => first [unfold m in Z|lazymatch m with ?f _ => unfold f in Z end] end); unfold if_set in Z; autounfold with made in *; cbn in Z;
  repeat match goal with
  | K : ka_kind ?a = _, Z : context [ka_kind ?a] |- _ => rewrite K in Z
  | c : cipher |- _ => destruct c; cbn in *
  end;
  repeat match goal with
  | H : exists x, _ |- _ => destruct H
  | H : _ /\ _ |- _ => destruct H
  | H : Some _ = Some _ |- _ => injection H as H
  | H : Some _ = None |- _ => discriminate H
  | H : None = Some _ |- _ => discriminate H
  | H : _ = true /\ _ |- _ => destruct H
  end.
Ltac use_made :=
  cbn; repeat match goal with |- _ /\ _ => split end; intros; subst;
  first [solve [eauto 3]|solve [eapply len_real; [eassumption|lia]]|congruence|lia].
Ltac absurd_made := exfalso; cbn in *; len_tac;
  repeat match goal with V : b_bytes ?a = b_bytes _, B : context [b_bytes ?a] |- _ => rewrite V in B; clear V end; subst;
  first [congruence|lia|match goal with H : ?a = ?a -> ?b <> ?b |- _ => exact (H eq_refl eq_refl) end|match goal with H : _ \/ _ |- _ => destruct H end; congruence].
(* some allocation has failed, as the object could have been made by the library *)
Ltac failed :=
  match goal with
  | F : exists n, ?fails n _ = true |- some_failure ?fails => let n := fresh in destruct F as (n & F); exists n; eexists; exact F
  | F : _ -> some_failure _ |- some_failure _ => apply F; solve [use_made]
  | |- some_failure _ => solve [absurd_made]
  end.
Ltac failed_if Z := first [match goal with F : exists n, ?fails n _ = true |- some_failure ?fails =>
                             let n := fresh in destruct F as (n & F); exists n; eexists; exact F end
                          |open_made Z; failed].
(* a leak, or something dropped, is excused *)
Ltac excused :=
  match goal with
  | |- false = true -> _ => let C := fresh in intros C; discriminate C
  | HW : true = true -> _ -> ?W |- true = true -> _ -> ?W =>
      let F := fresh in let Z := fresh in intros _ F; apply HW; [reflexivity|intros Z; open_made Z; apply F; solve [use_made]]
  | HW : true = true -> _ -> ?W |- ?W => let Z := fresh in apply HW; [reflexivity|intros Z; failed_if Z]
  end.
(* the hypothesis about the present heap *)
Ltac at_heap tac := match goal with E : ext _ _ _ _ ?h |- wp _ _ _ ?h _ => tac E end.
Ltac wstep :=
  lazymatch goal with
  | |- wp _ _ (hbind _ _) _ _ => apply wp_bind
  | |- wp _ _ (hcheck _ _ _) _ _ => apply wp_check
  | |- wp _ _ (hassume _ _) _ _ => apply wp_assume
  | |- wp _ _ (hcheck_if _ _ _ _) _ _ => apply wp_check_if
  | |- wp _ _ (hret _) _ _ => apply wp_ret
  | |- wp _ _ (touch _) _ _ => eapply wp_touch; [live|]
  | |- wp _ _ (alloc _ []) _ _ =>
      at_heap ltac:(fun E => let E' := fresh "E" in let h := fresh "h" in
        eapply wp_alloc; [exact E|intros h E' ?; clear E|intros ? h E'; clear E; change (one_cell ?b []) with (struct_cell b) in E'])
  | |- wp _ _ (free ?a) _ _ =>
      at_heap ltac:(fun E => pull E (struct_cell a); let E' := fresh "E" in let h := fresh "h" in
        eapply wp_free; [exact E|kept|intros h E'; clear E])
  end.
(* a call of a copy function *)
Ltac wcopy :=
  lazymatch goal with
  | |- wp _ _ (?f None) _ _ => let D := constr:(copy_has (copy := f)) in apply (copy_null _ _ _ _ _ _ _ _ _ _ D)
  | |- wp _ _ (?f (Some ?t)) _ _ =>
      at_heap ltac:(fun E => let E' := fresh "E" in let h := fresh "h" in
        let R := constr:(copy_has (copy := f)) in
        lazymatch type of E with ext _ ?W _ _ _ => lazymatch goal with HD : _ = true -> _ -> ?D, QS : forall t' h1, _ -> _ -> _ \/ ?D -> _ |- _ =>
        eapply (proj2 R) with (W := W) (D := D) end end; [untested_tac|excused|excused|exact E|assumption|kept|intros h E' ?; clear E|intros ? h E' ? ?; cbv beta in *; clear E])
  end.
Ltac wdestroy :=
  lazymatch goal with
  | |- wp _ _ (?f None) _ _ => let D := constr:(destroy_has (destroy := f)) in apply (destroy_null _ _ _ _ D)
  | |- wp _ _ (?f (Some ?t)) _ _ =>
      let D := constr:(destroy_has (destroy := f)) in
      lazymatch type of D with destroy_rule ?cells _ _ _ =>
        at_heap ltac:(fun E => pull E (cells t); let E' := fresh "E" in let h := fresh "h" in
          eapply (proj2 D); [exact E|kept|intros h E'; clear E]) end
  end.

(* ---- buffers ---- *)
Lemma buffer_create_empty_wp secret (U W : Prop) fails h0 X h len (Q : option hbuf -> heap -> Prop) :
  (0 < len <= MAX_BUFFER_SIZE)%N ->
  ext secret W h0 X h -> keeps_secret secret [] ->
  (forall h1, ext secret W h0 X h1 -> some_failure fails -> Q None h1) ->
  (forall b h1, ext secret W h0 (buf_cells b ++ X) h1 -> b_bytes b = zeros (N.to_nat len) -> Q (Some b) h1) ->
  wp U fails (h_buffer_create_empty len) h Q.
Proof.
  intros L E K QN QS. unfold h_buffer_create_empty.
  replace ((MAX_BUFFER_SIZE <? len) || (len =? 0))%N with false by lia.
  wstep. wstep.
  - wstep. apply QN; [assumption|failed].
  - wstep. at_heap ltac:(fun E => eapply wp_alloc; [exact E|intros h2 E2 F; clear E|intros d h2 E2; clear E]).
    + wstep. apply QN; [assumption|failed].
    + wstep. apply QS; [|reflexivity]. unfold buf_cells. cbn [b_addr b_data b_bytes]. eapply ext_perm; [|exact E2]. solve_perm.
Qed.
Lemma size_real (v : bytes) : real v -> (0 < blen v <= MAX_BUFFER_SIZE)%N.
Proof. exact (fun r => r). Qed.
Lemma size_cases len : {((MAX_BUFFER_SIZE <? len) || (len =? 0))%N = true} + {(0 < len <= MAX_BUFFER_SIZE)%N}.
Proof. destruct ((MAX_BUFFER_SIZE <? len) || (len =? 0))%N eqn:E; [left; reflexivity|right; lia]. Defined.
#[export] Instance buffer_copy_rule : Copies h_buffer_copy buf_cells b_bytes whole exact_copy real nothing [] false false.
Proof.
  split; [reflexivity|]. intros secret U W D fails h0 X h t Q HU HW HD E M K QN QS. unfold buf_cells in M. memory.
  destruct t as [a d v]; cbn [b_addr b_data b_bytes] in *.
  assert (M2 : mem h0 d = Some v) by (apply (proj2 H0); left; reflexivity).
  cbn [h_buffer_copy b_addr b_data]. wstep. wstep. wstep. eapply wp_load; [live|]. unfold h_buffer_create. wstep.
  destruct (size_cases (blen v)) as [B|B].
  - unfold h_buffer_create_empty. rewrite B. wstep. wstep. apply QN; [exact E|]. intros R. apply size_real in R. lia.
  - eapply buffer_create_empty_wp; [exact B|exact E|kept| |].
    + intros h1 E1 F. wstep. apply QN; auto.
    + intros [a1 d1 v1] h1 E1 G; cbn [b_addr b_data b_bytes] in *. unfold buf_cells in E1. cbn [b_addr b_data b_bytes] in E1. norm E1. subst v1.
      pull E1 (one_cell d1 (zeros (N.to_nat (blen v)))). wstep. eapply wp_store; [exact E1| |].
      * unfold zeros, blen. rewrite repeat_length. lia.
      * intros h2 E2. wstep. apply QS; [|reflexivity|left; reflexivity]. unfold buf_cells. cbn [b_addr b_data b_bytes]. eapply ext_perm; [|exact E2]. solve_perm.
Qed.
#[export] Instance buffer_destroy_rule : Destroys h_buffer_destroy buf_cells b_bytes (fun v => [v]).
Proof.
  split; [reflexivity|]. intros secret U W fails h0 X h t Q E K QD. unfold buf_cells in E. norm E. cbn [h_buffer_destroy].
  wstep. wstep. wstep. pull E (one_cell (b_data t) (b_bytes t)). eapply wp_free; [exact E|kept|]. intros h1 E1. clear E. wstep. apply QD; assumption.
Qed.
#[export] Instance buffer_destroy_zero_rule : Destroys h_buffer_destroy_zero buf_cells b_bytes nothing.
Proof.
  split; [reflexivity|]. intros secret U W fails h0 X h t Q E K QD. unfold buf_cells in E. norm E. cbn [h_buffer_destroy_zero].
  wstep. wstep. wstep. pull E (one_cell (b_data t) (b_bytes t)). eapply wp_zero; [exact E|]. intros h1 E1. clear E.
  cbn [h_buffer_destroy]. wstep. wstep. wstep.
  pull E1 (one_cell (b_data t) (zeros (length (b_bytes t)))). eapply wp_free; [exact E1|kept|]. intros h2 E2. clear E1. wstep. apply QD; assumption.
Qed.

Arguments h_buffer_create_empty : simpl never.
Arguments h_buffer_create : simpl never.
Arguments h_buffer_copy : simpl never.
Arguments h_buffer_destroy : simpl never.
Arguments h_buffer_destroy_zero : simpl never.
Arguments h_ec_key_create : simpl never.
Arguments h_ec_key_copy : simpl never.
Arguments h_ec_key_destroy : simpl never.
Arguments h_ecdsa_result_create : simpl never.
Arguments h_ecdsa_result_copy : simpl never.
Arguments h_ecdsa_result_destroy : simpl never.
Arguments h_cipher_key_create : simpl never.
Arguments h_cipher_key_copy : simpl never.
Arguments h_cipher_key_destroy : simpl never.
Arguments h_cipher_result_create : simpl never.
Arguments h_cipher_result_copy : simpl never.
Arguments h_cipher_result_destroy : simpl never.
Arguments h_kdf_meta_create : simpl never.
Arguments h_kdf_meta_copy : simpl never.
Arguments h_kdf_meta_destroy : simpl never.
Arguments h_kdf_result_create : simpl never.
Arguments h_kdf_result_copy : simpl never.
Arguments h_kdf_result_destroy : simpl never.
Arguments h_fingerprint_create : simpl never.
Arguments h_fingerprint_copy : simpl never.
Arguments h_fingerprint_destroy : simpl never.
Arguments h_array_new : simpl never.
Arguments h_array_set_item : simpl never.
Arguments h_array_copy : simpl never.
Arguments h_array_destroy : simpl never.
Arguments one_cell : simpl never.
Arguments struct_cell : simpl never.
Arguments buf_cells : simpl never.
Arguments key_cells : simpl never.
Arguments sig_cells : simpl never.
Arguments ck_cells : simpl never.
Arguments cr_cells : simpl never.
Arguments km_cells : simpl never.
Arguments kr_cells : simpl never.
Arguments fp_cells : simpl never.
Arguments arr_cells : simpl never.

(* what is left over in the hypothesis [E] is leaked *)
Ltac leak E :=
  lazymatch goal with
  | |- ext _ _ _ ?X _ =>
      repeat lazymatch type of E with
      | ext _ _ _ X _ => fail
      | ext _ _ _ (_ ++ _) _ => apply ext_leak in E; [|solve [excused]]
      end; exact E
  end.
(* equal values *)
Create HintDb keeps.
Ltac value_eq := match goal with |- ?v _ = _ => autounfold with keeps; unfold v end; cbn; first [congruence|unfold detached; cbn; congruence].
(* how the copy relates to the original *)
Ltac rel_part := first [assumption|congruence|constructor; assumption|intros; congruence|left; rel_part|right; rel_part].
Ltac rel_tac :=
  first [assumption|congruence|
    match goal with |- ?r _ _ => unfold r | |- ?r _ _ _ => unfold r end;
    first [value_eq|unfold may_lack; cbn; repeat match goal with |- _ /\ _ => split end; rel_part]].
(* nothing was dropped, or that is excused *)
Ltac whole_or_excused :=
  repeat match goal with V : _ = _ \/ ?D |- _ \/ ?D => destruct V as [V|V]; [|right; exact V] end;
  first [solve [left; value_eq]|right; excused].
(* the two kinds of postcondition *)
Ltac post :=
  match goal with
  | QN : forall h1, ext _ _ _ _ h1 -> _ -> ?Q None h1, E : ext _ _ _ _ ?h |- ?Q None ?h =>
      apply QN; [first [exact E|leak E]|let Z := fresh in intros Z; failed_if Z]
  | QS : forall t' h1, ext _ _ _ _ h1 -> _ -> _ -> ?Q (Some t') h1, E : ext _ _ _ _ ?h |- ?Q (Some ?t) ?h =>
      apply QS; [match goal with |- ext _ _ _ (?c _ ++ _) _ => unfold c at 1 end; cbn; (eapply ext_perm; [|exact E]; solve_perm)|
                 try solve [value_eq|rel_tac]|try solve [whole_or_excused]]
  | QD : forall h1, ext _ _ _ _ h1 -> ?Q tt h1 |- ?Q tt _ => apply QD; assumption
  end.
Create HintDb creates.
#[export] Hint Unfold h_ec_key_create h_ecdsa_result_create h_cipher_key_create h_cipher_result_create h_kdf_meta_create h_kdf_result_create
  h_fingerprint_create : creates.
Ltac branch :=
  match goal with
  | |- wp _ _ (if ?b then _ else _) _ _ => let B := fresh "B" in destruct b eqn:B
  | |- wp _ _ (match ?b with _ => _ end) _ _ => let B := fresh "B" in destruct b eqn:B
  end.
Ltac wgo := repeat (post || wstep || wcopy || wdestroy || untested_tac || (progress autounfold with creates; cbn) || (progress cbn) || branch).
(* opening the statements *)
Ltac options := repeat match goal with o : option _ |- _ => destruct o; cbn in * end.
Ltac open_plain K t :=
  lazymatch type of K with keeps_secret _ (?p _) => try unfold p in K | _ => idtac end; autounfold with plains in K;
  repeat match type of K with context [?q (?v t)] => lazymatch type of (q (v t)) with list bytes => unfold q in K end end.
Ltac start_copy f cells :=
  split; [reflexivity|]; intros secret U W D fails h0 X h t Q HU HW HD E M K QN QS; unfold cells in M; memory; unfold f; open_plain K t; destruct t; cbn in *; options.
Ltac start_destroy f cells :=
  split; [reflexivity|]; intros secret U W fails h0 X h t Q E K QD; unfold cells in E; unfold f; open_plain K t; destruct t; cbn in *; options; norm E.

(* ---- keys ---- *)
#[export] Instance ec_key_copy_rule : Copies h_ec_key_copy key_cells key_value whole exact_copy made_ec_key key_copy_plain [T_ec_key] false false.
Proof. start_copy h_ec_key_copy key_cells. all: wgo. Qed.
#[export] Instance ec_key_destroy_rule : Destroys h_ec_key_destroy key_cells key_value nothing.
Proof. start_destroy h_ec_key_destroy key_cells. all: wgo. Qed.
#[export] Instance ecdsa_result_copy_rule : Copies h_ecdsa_result_copy sig_cells sig_value whole exact_copy made_signature nothing [T_ecdsa_result] false false.
Proof. start_copy h_ecdsa_result_copy sig_cells. all: wgo. Qed.
#[export] Instance ecdsa_result_destroy_rule : Destroys h_ecdsa_result_destroy sig_cells sig_value sig_plain.
Proof. start_destroy h_ecdsa_result_destroy sig_cells. all: wgo. Qed.
#[export] Instance cipher_key_copy_rule : Copies h_cipher_key_copy ck_cells ck_value whole exact_copy made_cipher_key nothing [T_cipher_key] false false.
Proof. start_copy h_cipher_key_copy ck_cells. all: wgo. Qed.
#[export] Instance cipher_key_destroy_rule : Destroys h_cipher_key_destroy ck_cells ck_value nothing.
Proof. start_destroy h_cipher_key_destroy ck_cells. all: wgo. Qed.

#[export] Instance cipher_result_destroy_rule : Destroys h_cipher_result_destroy cr_cells cr_value
  cr_plain.
Proof. start_destroy h_cipher_result_destroy cr_cells. all: wgo. Qed.
#[export] Instance cipher_result_copy_rule : Copies h_cipher_result_copy cr_cells cr_value whole result_dropped made_cipher_result nothing
  [T_cipher_result] true true.
Proof. start_copy h_cipher_result_copy cr_cells. all: wgo. Qed.
#[export] Instance kdf_meta_destroy_rule : Destroys h_kdf_meta_destroy km_cells km_value km_plain.
Proof. start_destroy h_kdf_meta_destroy km_cells. all: wgo. Qed.
#[export] Instance kdf_meta_copy_rule : Copies h_kdf_meta_copy km_cells km_value whole exact_copy made_kdf_meta km_copy_plain
  [] true false.
Proof. start_copy h_kdf_meta_copy km_cells. all: wgo. Qed.
#[export] Instance kdf_result_destroy_rule : Destroys h_kdf_result_destroy kr_cells kr_value kr_plain.
Proof. start_destroy h_kdf_result_destroy kr_cells. all: wgo. Qed.
#[export] Instance kdf_result_copy_rule : Copies h_kdf_result_copy kr_cells kr_value whole exact_copy made_kdf_result
  kr_copy_plain [] true false.
Proof. start_copy h_kdf_result_copy kr_cells. all: wgo. Qed.
#[export] Instance fingerprint_destroy_rule : Destroys h_fingerprint_destroy fp_cells fp_value fp_plain.
Proof. start_destroy h_fingerprint_destroy fp_cells. all: wgo. Qed.
#[export] Instance fingerprint_copy_rule : Copies h_fingerprint_copy fp_cells fp_value whole exact_copy made_fingerprint fp_plain [] false false.
Proof. start_copy h_fingerprint_copy fp_cells. all: wgo. Qed.

(* ---- arrays ---- *)
Section array.
  Context {T V : Type} (cells : T -> list cell) (value : T -> V) (item_copy : option T -> H (option T)) (item_destroy : option T -> H unit).

  Lemma array_destroy_has pub : destroy_rule cells value pub item_destroy ->
    destroy_rule (arr_cells cells) (arr_value value) (all_public pub) (h_array_destroy item_destroy).
  Proof.
    intros D. split; [reflexivity|]. intros secret U W fails h0 X h [x st l] Q E K QD. unfold arr_cells in E. cbn in E, K. norm E.
    unfold h_array_destroy. cbn [harr_addr harr_items]. wstep. wstep. wstep.
    assert (G : forall l Y h, ext secret W h0 (flat_map (cells_opt cells) l ++ Y) h -> keeps_secret secret (all_public pub (map (option_map value) l)) ->
      forall Q : unit -> heap -> Prop, (forall h1, ext secret W h0 Y h1 -> Q tt h1) -> wp U fails (h_destroy_items item_destroy l) h Q).
    { clear -D. induction l as [|[t|] l IH]; intros Y h E K Q G; cbn [h_destroy_items]; cbn in E, K.
      - wstep. apply G. exact E.
      - wstep. norm E. eapply (proj2 D); [exact E|apply (keeps_sub _ _ _ K)|].
        + intros c I. rewrite app_nil_r. apply in_or_app. left. exact I.
        + intros h1 E1. eapply IH; [exact E1| |exact G]. apply (keeps_sub _ _ _ K). intros c I. apply in_or_app. right. exact I.
      - wstep. apply (destroy_null _ _ _ _ D). eapply IH; [exact E|exact K|exact G]. }
    pull E (flat_map (cells_opt cells) l). eapply G; [exact E|exact K|].
    intros h1 E1. clear E. unfold arr_store in *. cbn [harr_store harr_items option_map] in *. destruct st as [ad|].
    + cbn [option_map cells_opt] in *. wstep. pull E1 (buf_cells (store_buf (length l) ad)). eapply (proj2 (destroy_has (destroy := h_buffer_destroy)));
        [exact E1| |].
      * split; [exact (proj1 K)|]. intros c [<-|[]]. apply (proj1 K).
      * intros h2 E2. clear E1. wgo.
    + cbn [option_map cells_opt] in *. norm E1. wgo.
  Qed.

  Context (rel : V -> V -> Prop) (made : V -> Prop) (public : V -> list bytes) (untested : list ctype) (leaky lossy : bool) (pubd : V -> list bytes).
  Definition rel_items : list (option V) -> list (option V) -> Prop := Forall2 (part_rel rel).
  Lemma all_public_in (p : V -> list bytes) t l : In (Some t) l -> incl (p (value t)) (all_public p (map (option_map value) l)).
  Proof.
    intros I c J. unfold all_public. apply in_flat_map. exists (Some (value t)). split; [apply (in_map (option_map value) _ _ I)|].
    cbn. rewrite app_nil_r. exact J.
  Qed.
  Lemma all_public_rel (p : V -> list bytes) l l' : (forall v v', rel v v' -> incl (p v') (p v)) -> rel_items l l' ->
    incl (all_public p l') (all_public p l).
  Proof.
    intros RP F. induction F as [|a b l l' R F IH]; [exact (fun c I => I)|]. unfold all_public in *. cbn. intros c I. apply in_app_or in I.
    apply in_or_app. destruct I as [I|I]; [left|right; apply IH; exact I]. inversion R as [|v v' R' Ea Eb]; subst; [exact I|].
    cbn in *. rewrite app_nil_r in *. exact (RP _ _ R' _ I).
  Qed.
  Lemma all_public_app {A} (p : A -> list bytes) a b : all_public p (a ++ b) = all_public p a ++ all_public p b.
  Proof. apply flat_map_app. Qed.
  Lemma all_public_none {A} (p : A -> list bytes) k : all_public p (repeat None k) = [].
  Proof. induction k as [|k IH]; [reflexivity|exact IH]. Qed.
  Lemma map_none k : map (option_map value) (repeat None k) = repeat None k.
  Proof. induction k as [|k IH]; cbn; [reflexivity|rewrite IH; reflexivity]. Qed.
  Lemma array_copy_has :
    copy_rule cells value whole rel made public untested leaky lossy item_copy -> destroy_rule cells value pubd item_destroy ->
    (forall v v', rel v v' -> incl (pubd v') (pubd v)) ->
    copy_rule (arr_cells cells) (arr_value value) whole rel_items (made_items made) (fun l => all_public public l ++ all_public pubd l)
      untested leaky lossy (h_array_copy item_copy item_destroy).
  Proof.
    intros C D RP. pose proof (array_destroy_has pubd D) as DA.
    split; [reflexivity|]. intros secret U W Dr fails h0 X h [x st l] Q HU HW HD E M K QN QS. unfold arr_cells in M. cbn in M. cbv beta in K.
    unfold arr_value in *. cbn [harr_items] in *. memory.
    assert (ML : forall t, In (Some t) l -> in_memory h0 (cells t)).
    { intros t I. split.
      - apply in_split in I. destruct I as (l1 & l2 & ->). rewrite flat_map_app in H1. cbn in H1. memory. exact (proj1 H2).
      - intros b c I2. apply (proj2 H1). apply in_flat_map. exists (Some t). split; assumption. }
    assert (MA : forall t, In (Some t) l -> made_items made (map (option_map value) l) -> made (value t)).
    { intros t I (Z & _). rewrite Forall_forall in Z. apply (Z (option_map value (Some t)) (in_map _ _ _ I)). reflexivity. }
    clear H0 H1. unfold h_array_copy. cbn [harr_addr harr_items]. wstep. wstep.
    (* the loop *)
    assert (G : forall rest pre c h1, l = pre ++ rest ->
      length (harr_items c) = length l ->
      (exists news, harr_items c = news ++ repeat None (length rest) /\ length news = length pre /\
        rel_items (map (option_map value) pre) (map (option_map value) news) /\
        (map (option_map value) news = map (option_map value) pre \/ Dr)) ->
      ext secret W h0 (arr_cells cells c ++ X) h1 ->
      wp U fails (h_copy_items item_copy item_destroy rest (length pre) (Some c)) h1 Q).
    { induction rest as [|o rest IH]; intros pre c h1 SL LC (news & N1 & N2 & N3 & N4) E1.
      - cbn [h_copy_items]. wstep. cbn in N1. rewrite app_nil_r in N1, SL. subst pre. apply QS; [exact E1| |]; unfold arr_value; rewrite N1; assumption.
      - cbn [h_copy_items]. wstep. unfold h_array_set_item. wstep.
        unfold arr_cells in E1. norm E1. wstep. rewrite N1. rewrite nth_error_app2 by lia. rewrite N2, Nat.sub_diag. cbn [repeat length nth_error].
        assert (SK : skipn (S (length pre)) (news ++ None :: repeat None (length rest)) = repeat (@None T) (length rest)).
        { rewrite <- N2. rewrite skipn_app, skipn_all2 by lia. replace (S (length news) - length news) with 1 by lia. reflexivity. }
        assert (FI : firstn (length pre) (news ++ None :: repeat (@None T) (length rest)) = news).
        { rewrite <- N2. rewrite firstn_app, firstn_all, Nat.sub_diag. cbn. apply app_nil_r. }
        assert (Cc : forall y, flat_map (cells_opt cells) (news ++ y :: repeat None (length rest)) =
                     flat_map (cells_opt cells) news ++ cells_opt cells y).
        { intros y. rewrite flat_map_app. cbn. f_equal. clear. induction (length rest) as [|k IH]; cbn; [apply app_nil_r|exact IH]. }
        assert (IH' : forall y h2, ext secret W h0 (cells_opt cells y ++ struct_cell (harr_addr c) ++ cells_opt buf_cells (arr_store c) ++
                        flat_map (cells_opt cells) (news ++ None :: repeat None (length rest)) ++ X) h2 ->
                      part_rel rel (option_map value o) (option_map value y) -> (option_map value y = option_map value o \/ Dr) ->
                      wp U fails (item_destroy None ;;; hret (true, {| harr_addr := harr_addr c; harr_store := harr_store c;
                           harr_items := firstn (length pre) (news ++ None :: repeat None (length rest)) ++ y ::
                                         skipn (S (length pre)) (news ++ None :: repeat None (length rest)) |}))%h h2
                        (fun r h3 => wp U fails (if fst r then h_copy_items item_copy item_destroy rest (S (length pre)) (Some (snd r))
                                                 else h_array_destroy item_destroy (Some (snd r)) ;;; hret None)%h h3 Q)).
        { intros y h2 E2 R2 V2. wstep. apply (destroy_null _ _ _ _ D). wstep. cbn [fst snd].
          replace (S (length pre)) with (length (pre ++ [o])) by (rewrite app_length; cbn; lia). rewrite FI. replace (length (pre ++ [o])) with (S (length pre)) by (rewrite app_length; cbn; lia). rewrite SK.
          replace (S (length pre)) with (length (pre ++ [o])) by (rewrite app_length; cbn; lia).
          apply IH.
          - rewrite SL, <- app_assoc. reflexivity.
          - cbn [harr_items]. rewrite <- LC, N1. rewrite !app_length. reflexivity.
          - exists (news ++ [y]). cbn [harr_items]. rewrite <- app_assoc. split; [reflexivity|]. rewrite !app_length. split; [cbn; lia|].
            rewrite !map_app. cbn. split.
            + apply Forall2_app; [exact N3|]. constructor; [exact R2|constructor].
            + destruct N4 as [->|d]; [|right; exact d]. destruct V2 as [->|d]; [left; reflexivity|right; exact d].
          - eapply ext_perm; [|exact E2]. unfold arr_cells. cbn [harr_addr harr_items]. rewrite !Cc. rewrite !app_nil_r.
            unfold arr_store. cbn [harr_store harr_items]. rewrite N1. rewrite !app_length. cbn [length]. rewrite !repeat_length.
            cbn [cells_opt]. rewrite ?app_nil_r. solve_perm. }
        assert (FD : forall h2, ext secret W h0 (struct_cell (harr_addr c) ++ cells_opt buf_cells (arr_store c) ++
                        flat_map (cells_opt cells) (harr_items c) ++ X) h2 ->
                     (made_items made (map (option_map value) l) -> some_failure fails) ->
                     wp U fails (h_array_destroy item_destroy (Some c)) h2 (fun _ h3 => wp U fails (hret None) h3 Q)).
        { intros h2 E2 F. eapply (proj2 DA).
          - unfold arr_cells. rewrite <- !app_assoc. exact E2.
          - apply (keeps_sub _ _ _ K). unfold arr_value. rewrite N1, map_app, all_public_app, map_none, all_public_none, app_nil_r.
            intros b I. apply in_or_app. right. rewrite SL, map_app, all_public_app. apply in_or_app. left.
            exact (all_public_rel _ _ _ RP N3 _ I).
          - intros h3 E3. wstep. apply QN; [exact E3|exact F]. }
        destruct o as [t|].
        + assert (It : In (Some t) l) by (rewrite SL; apply in_or_app; right; left; reflexivity).
          wstep. eapply (proj2 C); [exact HU| | |exact E1|exact (ML t It)| | |].
          * intros L F. apply HW; [exact L|]. intros Z. apply F. exact (MA t It Z).
          * intros L F. apply HD; [exact L|]. intros Z. apply F. exact (MA t It Z).
          * apply (keeps_sub _ _ _ K). intros b I. apply in_or_app. left. exact (all_public_in _ _ _ It _ I).
          * intros h2 E2 F. wstep. cbn [fst snd]. wstep. apply FD; [exact E2|].
            intros Z. apply F. exact (MA t It Z).
          * intros t' h2 E2 R2 V2. apply (IH' (Some t')); [rewrite N1 in E2; exact E2|constructor; exact R2|].
            cbn. destruct V2 as [->|d]; [left; reflexivity|right; exact d].
        + wstep. wstep. apply (IH' None); [rewrite N1 in E1; exact E1|constructor|left; reflexivity]. }
    wstep. unfold h_array_new. destruct (Nat.eqb_spec (length l) 0) as [L0|L0].
    - destruct l; [|discriminate L0]. wstep. wstep.
      + wstep. cbn [h_copy_items]. wstep. apply QN; [exact E0|]. intros _. failed.
      + wstep. cbn [h_copy_items]. wstep. apply QS; [|constructor|left; reflexivity].
        unfold arr_cells. cbn [harr_addr harr_store harr_items arr_store option_map cells_opt flat_map]. rewrite !app_nil_l, app_nil_r. exact E0.
    - wstep. assert (FN : forall h1, ext secret W h0 X h1 -> (made_items made (map (option_map value) l) -> some_failure fails) ->
                    wp U fails (h_copy_items item_copy item_destroy l 0 None) h1 Q).
      { intros h1 E1 F. destruct l; [contradiction|]. cbn [h_copy_items]. wstep. apply QN; assumption. }
      destruct (size_cases (8 * N.of_nat (length l))) as [B|B].
      + unfold h_buffer_create_empty. rewrite B. wstep. wstep. apply FN; [exact E|]. intros (_ & L). exfalso. rewrite map_length in L. lia.
      + eapply buffer_create_empty_wp; [exact B|exact E|split; [exact (proj1 K)|intros c []]| |].
        * intros h1 E1 F. wstep. apply FN; [exact E1|intros _; exact F].
        * intros b h1 E1 Vb. wstep. clear E. wstep.
          -- eapply (proj2 (destroy_has (destroy := h_buffer_destroy))); [exact E| |].
             ++ split; [exact (proj1 K)|]. intros c [<-|[]]. rewrite Vb. apply (proj1 K).
             ++ intros h3 E3. apply FN; [exact E3|]. intros _. failed.
          -- wstep. apply (G l [] _ _ eq_refl); [apply repeat_length|exists []; repeat split; [constructor|left; reflexivity]|].
             unfold arr_cells. cbn [harr_addr harr_items arr_store harr_store option_map cells_opt].
             replace (flat_map (cells_opt cells) (repeat None (length l))) with (@nil cell).
             ++ unfold store_buf. rewrite repeat_length. destruct b as [ba bd bb]. cbn [b_addr b_data b_bytes fst snd] in *. subst bb.
                rewrite app_nil_r, <- app_assoc. exact E.
             ++ clear; induction (length l) as [|k IHk]; [reflexivity|exact IHk].
  Qed.
End array.
