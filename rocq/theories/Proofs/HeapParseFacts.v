(* Rules for the functions of Model/HeapParse.v. *)
From Verif.Base Require Import Bytes Monad.
From Verif.Model Require Import Buffer Cipher Ecdsa Kdf Prims Engine Identity Node Stream TransportPacket EcdhCipher Handshake Transport Keys Payload Exchange Packet Ctx Heap HeapObjects HeapMessages HeapParse.
From Verif.Spec Require Import HeapSpec HeapObjectSpec BufferSpec CopySpec HeapParseSpec.
From Verif.Proofs Require Import BufferFacts HeapFacts HeapObjectFacts HeapMessageFacts HeapTransportFacts HeapCtxFacts.
From Verif.Proofs Require TransportPacketFacts.
From Coq Require Import Permutation ZifyBool ZifyNat ZifyN.
Local Open Scope N_scope.

Definition parse_rule {A T V} (cells : T -> list cell) (value : T -> V) (pure : A -> res V) (public : A -> list bytes)
  (untested : list ctype) (leak : schedule -> A -> Prop) (parse : A -> H (option T)) : Prop :=
  forall secret (U W : Prop) fails h0 X h a (Q : option T -> heap -> Prop),
    (forall n ty, In ty untested -> fails n ty = true -> U) -> (leak fails a -> W) ->
    ext secret W h0 X h -> keeps_secret secret (public a) ->
    (forall h1, ext secret W h0 X h1 -> pure a = Null \/ some_failure fails -> Q None h1) ->
    (forall t h1, ext secret W h0 (cells t ++ X) h1 -> pure a = Val (value t) -> Q (Some t) h1) ->
    wp U fails (parse a) h Q.

(* the caller's buffer *)
Lemma input_wp {T} secret (U W : Prop) fails h0 X h (parse : bytes -> H (option T)) b (Q : option T -> heap -> Prop) :
  ext secret W h0 X h -> in_memory h (buf_cells b) -> wp U fails (parse (b_bytes b)) h Q -> wp U fails (with_input parse (Some b)) h Q.
Proof.
  intros E M G. unfold buf_cells in M. apply in_memory_app in M. destruct M as (M1 & M2).
  unfold with_input. apply wp_bind. eapply wp_touch; [apply in_memory_struct; exact M1|].
  apply wp_bind. eapply wp_load; [apply (proj2 M2); left; reflexivity|]. exact G.
Qed.
Lemma parse_sound {T V} (cells : T -> list cell) (value : T -> V) pure public untested leak parse :
  parse_rule cells value (fun b => pure (Some b)) public untested leak parse ->
  parses_in_memory cells value pure public untested leak (with_input parse).
Proof.
  intros R. split; [reflexivity|]. intros secret fails h b OK M K.
  pose (Q := fun (o : option T) h' => match o with
     | None => exists leaked, (leaked = [] \/ leak fails (b_bytes b)) /\ grown h leaked h' /\ wiped secret h h' /\
          (pure (Some (b_bytes b)) = Null \/ some_failure fails)
     | Some t => exists leaked, (leaked = [] \/ leak fails (b_bytes b)) /\ grown h (leaked ++ cells t) h' /\ wiped secret h h' /\
          pure (Some (b_bytes b)) = Val (value t)
     end).
  assert (G : wp (exists n ty, In ty untested /\ fails n ty = true) fails (with_input parse (Some b)) h Q).
  { eapply (input_wp secret _ (leak fails (b_bytes b))); [apply ext_start; exact OK|exact M|].
    eapply R with (W := leak fails (b_bytes b)); [intros n ty I F; exists n, ty; split; assumption|auto|apply ext_start; exact OK|exact K| |].
    - intros h1 (L & A & E) F. rewrite app_nil_r in E. destruct (ext0_grown _ _ _ _ E) as (G & B). exists L. repeat (split; [assumption|]). exact F.
    - intros t h1 (L & A & E) F. rewrite app_nil_r in E. destruct (ext0_grown _ _ _ _ E) as (G & B). exists L. repeat (split; [assumption|]). exact F. }
  unfold wp in G. destruct (with_input parse (Some b) fails h) as [[[t|] h']|]; exact G.
Qed.
Lemma parse_clean_on {T V} (inputs : bytes -> Prop) (cells : T -> list cell) (value : T -> V) pure public untested leak parse :
  parses_in_memory cells value pure public untested leak parse -> (forall b, inputs b -> ~ leak never b) ->
  parses_cleanly_on inputs cells value pure public parse.
Proof.
  intros (_ & R) NL secret h b I OK M K. specialize (R secret never h b OK M K).
  assert (NF : ~ some_failure never) by (intros (n & ty & F); discriminate F).
  destruct (parse (Some b) never h) as [[[t|] h']|].
  - destruct R as (L & [->|F] & G & B & VV); [|destruct (NL _ I F)]. rewrite VV. exists t, h'. repeat split; assumption || apply G.
  - destruct R as (L & [->|F] & G & B & VV); [|destruct (NL _ I F)]. destruct VV as [VV|F]; [|contradiction]. rewrite VV. exists h'. split; [reflexivity|].
    split; [|exact B]. split; [exact (proj1 G)|]. intros x. apply (proj2 (proj2 (proj2 G))). intros [].
  - destruct R as (n & ty & _ & F). discriminate F.
Qed.
Lemma parse_clean {T V} (cells : T -> list cell) (value : T -> V) pure public untested leak parse :
  parses_in_memory cells value pure public untested leak parse -> (forall b, ~ leak never b) ->
  parses_cleanly cells value pure public parse.
Proof. intros R NL. eapply parse_clean_on; [exact R|intros b _; apply NL]. Qed.
Lemma parse_strict {T V} (cells : T -> list cell) (value : T -> V) pure public parse :
  parses_in_memory cells value pure public [] never_leaks parse -> parses_safely cells value pure public parse.
Proof.
  intros (HN & R). split; [exact HN|]. intros secret fails h b OK M K. specialize (R secret fails h b OK M K).
  destruct (parse (Some b) fails h) as [[[t|] h']|].
  - destruct R as (L & [->|[]] & G & B & VV). repeat split; assumption || apply G.
  - destruct R as (L & [->|[]] & G & B & VV). split; [|split; assumption]. split; [exact (proj1 G)|].
    intros x. apply (proj2 (proj2 (proj2 G))). intros [].
  - destruct R as (n & ty & [] & _).
Qed.

Class Parses {A T V} (parse : A -> H (option T)) (cells : T -> list cell) (value : T -> V) (pure : A -> res V) (public : A -> list bytes)
  (untested : list ctype) (leak : schedule -> A -> Prop) : Prop := parse_has : parse_rule cells value pure public untested leak parse.
(* what the object keeps readable came from the public part of the input *)
Class Sourced {A V} (pure : A -> res V) (plain : V -> list bytes) (public : A -> list bytes) : Prop :=
  sourced : forall a v, pure a = Val v -> incl (plain v) (public a).

Lemma in_sections b s l : In (slice b s l) (sections b).
Proof.
  unfold sections. apply in_flat_map.
  destruct (Nat.le_gt_cases s (length b)) as [S|S].
  - exists s. split; [apply in_seq; lia|]. destruct (Nat.le_gt_cases l (length b)) as [L|L].
    + apply in_map_iff. exists l. split; [reflexivity|apply in_seq; lia].
    + apply in_map_iff. exists (length b). split; [|apply in_seq; lia]. unfold slice. rewrite !firstn_all2; [reflexivity| |]; rewrite skipn_length; lia.
  - exists 0%nat. split; [apply in_seq; lia|]. apply in_map_iff. exists 0%nat. split; [|apply in_seq; lia].
    unfold slice. rewrite (skipn_all2 (n := s) b) by lia. rewrite firstn_nil. reflexivity.
Qed.
Lemma copy_section_in b s l v : buffer_copy_section b s l = Some v -> In v (sections b).
Proof. unfold buffer_copy_section. destruct (section_ok b s l); [|discriminate]. intros V. injection V as <-. apply in_sections. Qed.
Lemma buffer_create_same v v' : buffer_create v = Some v' -> v' = v.
Proof. unfold buffer_create. destruct (size_ok (blen v)); [|discriminate]. intros V. injection V as <-. reflexivity. Qed.
Lemma buffer_fails_some fails : buffer_fails fails -> some_failure fails.
Proof. intros [(n & F)|(n & F)]; exists n; eexists; exact F. Qed.

Lemma buffer_make_wp secret (U W : Prop) fails h0 X h v (Q : option hbuf -> heap -> Prop) :
  ext secret W h0 X h -> keeps_secret secret [] ->
  (forall h1, ext secret W h0 X h1 -> buffer_create v = None \/ some_failure fails -> Q None h1) ->
  (forall b h1, ext secret W h0 (buf_cells b ++ X) h1 -> buffer_create v = Some (b_bytes b) -> Q (Some b) h1) ->
  wp U fails (h_buffer_create v) h Q.
Proof.
  intros E K QN QS. destruct (size_ok (blen v)) eqn:L.
  - unfold h_buffer_create, h_buffer_create_empty. unfold size_ok in L.
    replace ((MAX_BUFFER_SIZE <? blen v) || (blen v =? 0)) with false by lia.
    wstep. wstep. wstep.
    + wstep. wstep. apply QN; [assumption|right; failed].
    + wstep. at_heap ltac:(fun E => eapply wp_alloc; [exact E|intros h2 E2 F; clear E|intros d h2 E2; clear E]).
      * wstep. wstep. apply QN; [assumption|right; failed].
      * wstep. cbn [b_data b_addr]. wstep. eapply wp_store; [exact E2| |].
        -- unfold blen. rewrite repeat_length. unfold blen in L. lia.
        -- intros h3 E3. wstep. apply QS.
           ++ unfold buf_cells. cbn [b_addr b_data b_bytes]. eapply ext_perm; [|exact E3]. solve_perm.
           ++ unfold buffer_create, size_ok. rewrite L. reflexivity.
  - unfold h_buffer_create, h_buffer_create_empty. unfold size_ok in L.
    replace ((MAX_BUFFER_SIZE <? blen v) || (blen v =? 0)) with true by lia.
    wstep. wstep. wstep. apply QN; [exact E|left]. unfold buffer_create, size_ok. rewrite L. reflexivity.
Qed.
Lemma buffer_section_wp secret (U W : Prop) fails h0 X h v s l (Q : option hbuf -> heap -> Prop) :
  ext secret W h0 X h -> keeps_secret secret [] ->
  (forall h1, ext secret W h0 X h1 -> buffer_copy_section v s l = None \/ some_failure fails -> Q None h1) ->
  (forall b h1, ext secret W h0 (buf_cells b ++ X) h1 -> buffer_copy_section v s l = Some (b_bytes b) -> Q (Some b) h1) ->
  wp U fails (h_buffer_copy_section v s l) h Q.
Proof.
  intros E K QN QS. unfold h_buffer_copy_section. unfold buffer_copy_section in QN, QS. destruct (section_ok v s l) eqn:L.
  - assert (Z : size_ok (blen (slice v (N.to_nat s) (N.to_nat l))) = true).
    { unfold section_ok in L. unfold size_ok, slice, blen in *. rewrite firstn_length, skipn_length. lia. }
    eapply buffer_make_wp; [exact E|exact K| |].
    + unfold buffer_create. rewrite Z. intros h1 E1 [F|F]; [discriminate F|]. apply QN; [exact E1|right; exact F].
    + unfold buffer_create. rewrite Z. exact QS.
  - apply wp_ret. apply QN; [exact E|left; reflexivity].
Qed.

(* a step without allocations *)
Lemma wp_step {A B} (U : Prop) fails (r : res A) (k : A -> H (option B)) h (Q : option B -> heap -> Prop) :
  (r = UB -> U) -> (r = Null -> Q None h) -> (forall a, r = Val a -> wp U fails (k a) h Q) -> wp U fails (hstep r k) h Q.
Proof. intros A1 A2 A3. unfold hstep. destruct r; [apply A3; reflexivity|apply A2; reflexivity|apply A1; reflexivity]. Qed.
Lemma rd_in b i : (i < length b)%nat -> rd b i <> UB.
Proof. unfold rd. intros L. apply nth_error_Some in L. destruct (nth_error b i); [discriminate|contradiction]. Qed.
Lemma rd_null b i : rd b i <> Null.
Proof. unfold rd. destruct (nth_error b i); discriminate. Qed.
Lemma memread_in b s l : s + l <= blen b -> memread b s l <> UB.
Proof. unfold memread. intros L. replace (s + l <=? blen b) with true by lia. discriminate. Qed.
Lemma memread_null b s l : memread b s l <> Null.
Proof. unfold memread. destruct (s + l <=? blen b); discriminate. Qed.
Lemma lift_ub {A} (o : option A) : lift o <> UB.
Proof. destruct o; discriminate. Qed.
Lemma lift_null {A} (o : option A) : lift o = Null -> o = None.
Proof. destruct o; [discriminate|reflexivity]. Qed.
Lemma lift_val {A} (o : option A) a : lift o = Val a -> o = Some a.
Proof. destruct o; [|discriminate]. intros V. injection V as ->. reflexivity. Qed.

(* ---- tactics ---- *)
Ltac facts :=
  repeat match goal with
  | N : lift _ = Null |- _ => apply lift_null in N
  | V : lift _ = Val _ |- _ => apply lift_val in V
  end.
Create HintDb pures.
#[export] Hint Unfold cipher_key_create cipher_result_create ecdsa_result_create kdf_meta_create ec_key_create identity_create chain_create
  keypair_create node_create payload_create packet_meta_create key_exchange_create exchange_set_create packet_create storage_keys_create
  root_keys_create stream_key_create_user_data root_key_create tpacket_create cipher_key_from_protobytes
  ec_pub_key_to_buffer ec_pri_key_to_buffer evp_public_key_from_buffer : pures.
Ltac known :=
  repeat (match goal with
          | V : ?l = _ |- context [?l] => lazymatch l with _ _ => rewrite V end
          end; cbn [rbind lift negb andb orb curve_id]).
Ltac agree f :=
  unfold f; facts; cbv beta zeta; known; autounfold with pures; cbn [rbind lift negb andb orb curve_id]; known;
  try reflexivity.
Lemma section_len b s l v : buffer_copy_section b s l = Some v -> blen v = l.
Proof.
  unfold buffer_copy_section. destruct (section_ok b s l) eqn:O; [|discriminate]. intros V. injection V as <-.
  unfold section_ok, slice, blen in *. rewrite firstn_length, skipn_length. lia.
Qed.
(* what is released was public *)
Ltac in_public :=
  first [solve [in_tac]|solve [eapply copy_section_in; eassumption]|
         match goal with V : buffer_create _ = Some ?x |- In ?x _ => rewrite (buffer_create_same _ _ V); solve [in_tac] end].
Ltac pkept :=
  match goal with
  | K : keeps_secret ?s _ |- keeps_secret ?s _ =>
      refine (keeps_sub _ _ _ K _);
      let c := fresh in let I := fresh in
      intros c I; cbv beta in I;
      repeat match goal with
      | V : ?p ?a = Val (?v ?t), J : In c (?pl (?v ?t)) |- _ => apply (sourced (pure := p) (plain := pl) _ _ V) in J
      end;
      autounfold with plains in *; cbn in I; rewrite ?in_app_iff in I; cbn in I; split_or I; subst; solve [in_public]
  | _ => kept
  end.
Ltac wdestroy ::=
  lazymatch goal with
  | |- wp _ _ (?f None) _ _ => let D := constr:(destroy_has (destroy := f)) in apply (destroy_null _ _ _ _ D)
  | |- wp _ _ (?f (Some ?t)) _ _ =>
      let D := constr:(destroy_has (destroy := f)) in
      lazymatch type of D with destroy_rule ?cells _ _ _ =>
        at_heap ltac:(fun E => pull E (cells t); let E' := fresh "E" in let h := fresh "h" in
          eapply (proj2 D); [exact E|pkept|intros h E'; clear E]) end
  end.
Ltac pstep :=
  lazymatch goal with
  | |- wp _ _ (hstep _ _) _ _ =>
      let V := fresh "V" in
      apply wp_step; [intros V; exfalso; first [exact (lift_ub _ V)|revert V; apply rd_in; unfold ECDSA_HEADER_SIZE, PACKET_META_SIZE, blen in *; lia|revert V; apply memread_in; unfold PACKET_META_SIZE in *; lia]|
                      intros V; try (exfalso; first [exact (rd_null _ _ V)|exact (memread_null _ _ _ V)])|intros ? V; facts]
  | |- wp _ _ (h_buffer_copy_section _ _ _) _ _ =>
      at_heap ltac:(fun E => let E' := fresh "E" in let h := fresh "h" in let N := fresh "N" in let F := fresh "F" in let V := fresh "V" in
        eapply buffer_section_wp; [exact E|pkept|intros h E' [N|F]; clear E|intros ? h E' V; clear E])
  | |- wp _ _ (h_buffer_create _) _ _ =>
      at_heap ltac:(fun E => let E' := fresh "E" in let h := fresh "h" in let N := fresh "N" in let F := fresh "F" in let V := fresh "V" in
        eapply buffer_make_wp; [exact E|pkept|intros h E' [N|F]; clear E|intros ? h E' V; clear E])
  end.
Ltac leak_tac := first [contradiction|assumption|solve [auto]|solve [intros (_ & ?); auto]|solve [intros (? & _); discriminate]].
Ltac wparse :=
  lazymatch goal with
  | |- wp _ _ (?f ?a) _ _ =>
      at_heap ltac:(fun E => let E' := fresh "E" in let h := fresh "h" in let N := fresh "N" in let F := fresh "F" in let V := fresh "V" in
        let R := constr:(parse_has (parse := f)) in
        lazymatch type of E with ext _ ?W _ _ _ =>
          eapply R with (W := W); [untested_tac|leak_tac|exact E|pkept|intros h E' [N|F]; clear E|intros ? h E' V; clear E] end)
  end.
Ltac leak_more := fail.
Ltac pleak E :=
  lazymatch goal with
  | |- ext _ _ _ ?X _ =>
      repeat lazymatch type of E with
      | ext _ _ _ X _ => fail
      | ext _ ?W _ (_ ++ _) _ => apply ext_leak in E; [|match goal with HW : _ -> W |- W => apply HW; first [assumption|solve [failed]|solve [split; [reflexivity|first [assumption|solve [failed]]]]|solve [leak_more]] end]
      end; exact E
  end.
(* [f] is the functional model *)
Ltac ppost f :=
  match goal with
  | QN : forall h1, ext _ _ _ _ h1 -> _ -> ?Q None h1, E : ext _ _ _ _ ?h |- ?Q None ?h =>
      apply QN; [first [exact E|pleak E]|first [right; assumption|right; solve [failed]|left; solve [agree f]]]
  | QS : forall t' h1, ext _ _ _ _ h1 -> _ -> ?Q (Some t') h1, E : ext _ _ _ _ ?h |- ?Q (Some ?t) ?h =>
      apply QS; [match goal with |- ext _ _ _ (?c _ ++ _) _ => unfold c at 1 end; cbn; (eapply ext_perm; [|exact E]; solve_perm)|
                 solve [agree f; cbn; congruence]]
  | V : buffer_copy_section _ _ ?l = Some ?x, B : context [blen ?x] |- _ => exfalso; rewrite (section_len _ _ _ _ V) in B; lia
  end.
Ltac pgo f := repeat (ppost f || wstep || pstep || wdestroy || wparse || untested_tac || (progress autounfold with creates; cbn) || (progress cbn) || branch).
Ltac start_parse p := intros secret U W fails h0 X h b Q HU HW E K QN QS; unfold p.


(* ---- the leaves ---- *)
#[export] Instance cipher_key_parse_rule : Parses h_cipher_key_from_bytes ck_cells ck_value (fun b => cipher_key_from_buffer (Some b)) no_bytes
  [T_cipher_key] (fun _ _ => False).
Proof. start_parse h_cipher_key_from_bytes. pgo cipher_key_from_buffer. Qed.
#[export] Instance ecdsa_result_parse_rule : Parses h_ecdsa_result_from_bytes sig_cells sig_value (fun b => ecdsa_result_create_from_buffer (Some b)) no_bytes
  [T_ecdsa_result] (fun _ _ => False).
Proof. start_parse h_ecdsa_result_from_bytes. pgo ecdsa_result_create_from_buffer. Qed.
#[export] Instance cipher_result_parse_rule : Parses h_cipher_result_from_bytes cr_cells cr_value (fun b => cipher_result_from_buffer (Some b)) sections
  [T_cipher_result] (fun _ _ => False).
Proof. start_parse h_cipher_result_from_bytes. pgo cipher_result_from_buffer. Qed.
Lemma kdf_meta_size_null b : kdf_meta_size_with_buffer (Some b) <> Null.
Proof.
  unfold kdf_meta_size_with_buffer. destruct (blen b <=? 1); [discriminate|]. unfold rd. destruct (nth_error b 0); [|discriminate]. cbn [rbind].
  destruct (find_kdf_algo _); discriminate.
Qed.
Lemma kdf_meta_size_ub b : kdf_meta_size_with_buffer (Some b) <> UB.
Proof.
  unfold kdf_meta_size_with_buffer. destruct (blen b <=? 1) eqn:L; [discriminate|].
  destruct (rd b 0) eqn:R; [|exfalso; exact (rd_null _ _ R)|exfalso; revert R; apply rd_in; unfold blen in L; lia].
  cbn [rbind]. destruct (find_kdf_algo _); discriminate.
Qed.
Lemma kdf_meta_size_pos b v : kdf_meta_size_with_buffer (Some b) = Val v -> (v =? 0) = false -> 1 < blen b.
Proof. unfold kdf_meta_size_with_buffer. destruct (blen b <=? 1) eqn:L; [|lia]. intros V Z. injection V as <-. discriminate Z. Qed.
Lemma kdf_algo_kind i a : find_kdf_algo i = Some a -> ka_kind a <> KDF_HMAC_SHA2.
Proof.
  unfold find_kdf_algo. repeat match goal with |- context [if ?c then _ else _] => destruct c; [intros V; injection V as <-; discriminate|] end. discriminate.
Qed.
#[export] Instance kdf_meta_parse_rule : Parses h_kdf_meta_from_bytes km_cells km_value (fun b => kdf_meta_create_with_buffer (Some b)) no_bytes
  [] (fun fails _ => some_failure fails).
Proof.
  start_parse h_kdf_meta_from_bytes.
  apply wp_step; [intros V; destruct (kdf_meta_size_ub _ V)|intros V; destruct (kdf_meta_size_null _ V)|intros size V]. 
  destruct (size =? 0) eqn:Z; [pgo kdf_meta_create_with_buffer|].
  pose proof (kdf_meta_size_pos _ _ V Z). branch; [pgo kdf_meta_create_with_buffer|].
  pstep. pstep; [pgo kdf_meta_create_with_buffer|]. wstep. pstep. all: try solve [pgo kdf_meta_create_with_buffer].
Qed.
Section engine.
  Context (P : prims).
  Definition import_leak (is_private : bool) (fails : schedule) (_ : bytes) : Prop := is_private = true /\ some_failure fails.
  #[export] Instance ec_key_import_rule is_private : Parses (h_ec_key_import P is_private) key_cells key_value
    (fun b => lift (ec_key_import P (Some b) is_private)) (import_public P is_private) [T_ec_key] (import_leak is_private).
  Proof.
    start_parse h_ec_key_import. destruct is_private.
    - unfold h_evp_private, h_evp_free. unfold import_public in K. destruct (p_d2i P b) as [(pub & der)|] eqn:D.
      all: pgo ec_key_import.
    - unfold h_evp_public, h_evp_free. destruct b as [|c [|x r]]; [pgo ec_key_import|pgo ec_key_import|].
      destruct (curve_find (b2n c)) as [[]|] eqn:C; [|pgo ec_key_import]. destruct (p_o2i P (x :: r)) as [pub|] eqn:O.
      all: pgo ec_key_import.
Qed.
End engine.

(* ---- identities, nodes and keys ---- *)
Lemma bind_val {A B} (r : res A) (k : A -> res B) v : rbind r k = Val v -> exists a, r = Val a /\ k a = Val v.
Proof. destruct r; cbn [rbind]; [|discriminate|discriminate]. intros V. exists a. split; [reflexivity|exact V]. Qed.
Ltac invert V :=
  repeat match type of V with
  | rbind _ _ = Val _ => let a := fresh "a" in let V1 := fresh "V" in apply bind_val in V; destruct V as (a & V1 & V); facts
  | (if ?c then _ else _) = Val _ => let C := fresh "C" in destruct c eqn:C; try discriminate V
  | match ?c with _ => _ end = Val _ => let C := fresh "C" in destruct c eqn:C; try discriminate V
  | lift ?o = Val _ => apply lift_val in V
  | (if ?c then _ else _) = Some _ => let C := fresh "C" in destruct c eqn:C; try discriminate V
  | match ?c with _ => _ end = Some _ => let C := fresh "C" in destruct c eqn:C; try discriminate V
  | Some _ = Some _ => apply Some_inj' in V; subst
  | Val _ = Val _ => injection V as V; subst
  end.
#[export] Instance ecdsa_result_sourced : Sourced ecdsa_result_create_from_buffer sig_plain osections.
Proof.
  intros [b|] v V; [|discriminate V]. unfold ecdsa_result_create_from_buffer in V. cbv zeta in V. invert V. unfold ecdsa_result_create in V. invert V.
  intros y [<-|[]]. cbn. eapply copy_section_in. eassumption.
Qed.
#[export] Instance cipher_result_sourced : Sourced cipher_result_from_buffer cr_plain osections.
Proof.
  intros [b|] v V; [|discriminate V]. unfold cipher_result_from_buffer in V. cbv zeta in V. invert V. unfold cipher_result_create in V.
  invert V. all: repeat match goal with H : context [rbind (lift _)] |- _ => invert H | H : Val _ = Val _ |- _ => invert H end.
  all: intros y I; unfold cr_plain in I; cbn [cr_iv cr_text cr_tag opt_list] in I; rewrite ?in_app_iff in I; cbn [In app] in I; split_or I; subst.
  all: cbn [osections]; eapply copy_section_in; eassumption.
Qed.
Lemma opt_sig_sourced o x : (match o with Some s => rbind (ecdsa_result_create_from_buffer (Some s)) (fun r => Val (Some r)) | None => Val None end) = Val x ->
  incl (opt_plain sig_plain x) (osections o).
Proof.
  destruct o as [s|]; intros V.
  - apply bind_val in V. destruct V as (r & V & W). injection W as <-. exact (ecdsa_result_sourced _ _ V).
  - injection V as <-. intros c [].
Qed.
(* the blocks of a message *)
Lemma alloc_all_wp secret (U W : Prop) fails h0 l X h (Q : option (list block) -> heap -> Prop) :
  ext secret W h0 X h -> keeps_secret secret l ->
  (forall h1, ext secret W h0 X h1 -> some_failure fails -> Q None h1) ->
  (forall bs h1, ext secret W h0 (combine bs l ++ X) h1 -> length bs = length l -> Q (Some bs) h1) ->
  wp U fails (h_alloc_all l) h Q.
Proof.
  revert X h Q. induction l as [|c l IH]; intros X h Q E K QN QS; cbn [h_alloc_all].
  - wstep. exact (QS [] h E eq_refl).
  - wstep. eapply wp_alloc; [exact E|intros h1 E1 F|intros x h1 E1].
    + wstep. apply QN; [exact E1|failed].
    + wstep. eapply IH; [exact E1|refine (keeps_sub _ _ _ K _); intros y I; right; exact I| |].
      * intros h2 E2 F. eapply wp_free; [exact E2|apply (proj2 K); left; reflexivity|]. intros h3 E3. apply QN; assumption.
      * intros bs h2 E2 L. wstep. apply QS; [|cbn; congruence]. cbn [combine]. eapply ext_perm; [|exact E2].
        rewrite app_assoc. change ((x, c) :: combine bs l) with (one_cell x c ++ combine bs l). apply Permutation_app_tail, Permutation_app_comm.
Qed.
Lemma free_all_wp secret (U W : Prop) fails h0 l bs X h (Q : unit -> heap -> Prop) :
  ext secret W h0 (combine bs l ++ X) h -> keeps_secret secret l -> length bs = length l ->
  (forall h1, ext secret W h0 X h1 -> Q tt h1) -> wp U fails (h_free_all bs) h Q.
Proof.
  revert bs h. induction l as [|c l IH]; intros [|x bs] h E K L G; try discriminate L; cbn [h_free_all].
  - wstep. apply G. exact E.
  - wstep. eapply wp_free; [exact E|apply (proj2 K); left; reflexivity|]. intros h1 E1.
    eapply IH; [exact E1|refine (keeps_sub _ _ _ K _); intros y I; right; exact I|injection L as L; exact L|exact G].
Qed.
Lemma from_proto_rule {M T V} (unpack : bytes -> option M) fields (make : M -> H (option T)) (cells : T -> list cell) (value : T -> V) pure public
  untested leak (pure_b : option bytes -> res V) (leak_b : schedule -> bytes -> Prop) :
  parse_rule cells value pure public untested leak make ->
  (forall b, pure_b (Some b) = match unpack b with Some m => pure m | None => Null end) ->
  (forall fails b m, unpack b = Some m -> leak fails m -> leak_b fails b) ->
  parse_rule cells value (fun b => pure_b (Some b)) (of_message unpack fields public) untested leak_b (from_proto unpack fields make).
Proof.
  intros R P L secret U W fails h0 X h b Q HU HW E K QN QS. unfold from_proto, h_unpack, h_free_unpacked. unfold of_message in K. rewrite P in *.
  wstep. destruct (unpack b) as [m|] eqn:D.
  - wstep. eapply alloc_all_wp; [exact E|refine (keeps_sub _ _ _ K _); intros y I; apply in_or_app; left; exact I| |].
    + intros h1 E1 F. wstep. wstep. apply QN; [exact E1|right; exact F].
    + intros bs h1 E1 LB. wstep. wstep. cbn [fst snd].
      eapply R with (W := W); [exact HU|intros Z; exact (HW (L _ _ _ D Z))|exact E1|refine (keeps_sub _ _ _ K _); intros y I; apply in_or_app; right; exact I| |].
      * intros h2 E2 F. wstep. eapply free_all_wp; [exact E2|refine (keeps_sub _ _ _ K _); intros y I; apply in_or_app; left; exact I|exact LB|].
        intros h3 E3. wstep. apply QN; assumption.
      * intros t h2 E2 F. wstep. eapply free_all_wp; [eapply ext_perm; [apply HeapFacts.perm_swap|exact E2]|refine (keeps_sub _ _ _ K _); intros y I; apply in_or_app; left; exact I|exact LB|].
        intros h3 E3. wstep. apply QS; assumption.
  - wstep. wstep. apply QN; [exact E|left; reflexivity].
Qed.
Definition root_keys_from_message (P : prims) (m : pb_root_keys) : res root_keys :=
  match pr_node m, pr_remote m with
  | Some n, Some r =>
      if CURRENT_ROOT_KEY_VERSION <? pr_version m then Null
      else rbind (cipher_key_from_protobytes n) (fun node_storage =>
           rbind (rtry (cipher_key_from_protobytes r)) (fun remote_storage =>
           rbind (lift (ec_key_import P (Some (obytes (pr_signature m))) true)) (fun sig =>
           lift (root_keys_create (Some sig) (Some node_storage) remote_storage))))
  | _, _ => Null
  end.
Section identities.
  Context (P : prims).
  #[export] Instance identity_sourced : Sourced (identity_create_from_proto P) id_plain (opt_plain (identity_public P)).
  Proof.
    intros [m|] v V; [|discriminate V]. unfold identity_create_from_proto in V. cbv zeta in V. invert V. unfold identity_create in V. invert V.
    all: apply buffer_create_same in V0; subst.
    all: intros y I; unfold id_plain in I; cbn [id_identifier id_signature opt_plain] in I; cbn [opt_plain]; unfold identity_public.
    all: rewrite C, C0; rewrite ?in_app_iff; cbn [opt_list In osections] in *; destruct I as [<-|I]; [left; left; reflexivity|].
    right; left; exact (opt_sig_sourced _ _ V2 _ I).
  Qed.
  #[export] Instance keypair_sourced : Sourced (keypair_create_from_proto P) kp_plain (opt_plain keypair_public).
  Proof.
    intros [m|] v V; [|discriminate V]. unfold keypair_create_from_proto in V. invert V. unfold keypair_create in V. invert V.
    exact (opt_sig_sourced _ _ V1).
  Qed.
  #[export] Instance identity_message_rule : Parses (h_identity_from_message P) id_cells id_value (identity_create_from_proto P)
    (opt_plain (identity_public P)) [T_ec_key; T_ecdsa_result] (fun fails _ => some_failure fails).
  Proof.
    start_parse h_identity_from_message. destruct b as [m|]; [|pgo identity_create_from_proto].
    cbn [opt_plain] in K. unfold identity_public in K.
    destruct (pi_identifier m) eqn:I; [|pgo identity_create_from_proto].
    destruct (pi_sig_key m) eqn:S; [|pgo identity_create_from_proto].
    destruct (pi_type m) eqn:T; [|pgo identity_create_from_proto].
    destruct (pi_signature m) eqn:G. all: pgo identity_create_from_proto.
  Qed.
  #[export] Instance chain_message_rule : Parses (h_chain_from_message P) ch_cells ch_value (chain_create_from_proto P)
    (opt_plain (chain_public P)) [T_ec_key; T_ecdsa_result] (fun fails _ => some_failure fails).
  Proof.
    start_parse h_chain_from_message. destruct b as [m|]; [|pgo chain_create_from_proto]. cbn [opt_plain] in K. unfold chain_public in K.
    pgo chain_create_from_proto.
  Qed.
  #[export] Instance keypair_message_rule : Parses (h_keypair_from_message P) kp_cells kp_value (keypair_create_from_proto P)
    (opt_plain keypair_public) [T_ec_key; T_ecdsa_result] (fun _ _ => False).
  Proof.
    start_parse h_keypair_from_message. destruct b as [m|]; [|pgo keypair_create_from_proto]. cbn [opt_plain] in K. unfold keypair_public in K.
    destruct (pk_ec_key m) eqn:I; [|pgo keypair_create_from_proto].
    destruct (pk_identifier m) eqn:S; [|pgo keypair_create_from_proto].
    destruct (pk_signature m) eqn:T; pgo keypair_create_from_proto.
  Qed.
  #[export] Instance chain_sourced : Sourced (chain_create_from_proto P) ch_plain (opt_plain (chain_public P)).
  Proof.
    intros [m|] v V; [|discriminate V]. unfold chain_create_from_proto in V. invert V. unfold chain_create in V. invert V.
    apply identity_sourced in V0, V1. unfold ch_plain, chain_public. cbn [ch_root ch_node ch_cache opt_list opt_plain]. rewrite app_nil_r.
    intros y I. apply in_app_iff in I. apply in_app_iff. destruct I as [I|I]; [left; exact (V0 _ I)|right; exact (V1 _ I)].
  Qed.
  #[export] Instance node_message_rule : Parses (h_node_from_message P) nd_cells nd_value (fun m => node_create_from_proto P (Some m))
    (node_public P) [T_ec_key; T_ecdsa_result] (fun fails _ => some_failure fails).
  Proof.
    start_parse h_node_from_message. unfold node_public in K. destruct (pn_devid b) eqn:I; [|pgo node_create_from_proto].
    destruct (pn_keypair b) eqn:T; pgo node_create_from_proto.
  Qed.
  #[export] Instance root_keys_message_rule : Parses (h_root_keys_from_message P) rk_cells rk_value (fun m => root_keys_from_message P m)
    (root_keys_public P) [T_ec_key; T_cipher_key] (fun fails _ => some_failure fails).
  Proof.
    start_parse h_root_keys_from_message. unfold root_keys_public in K. destruct (pr_node b) eqn:I; [|pgo root_keys_from_message].
    destruct (pr_remote b) eqn:T; [|pgo root_keys_from_message].
    pgo root_keys_from_message.
  Qed.
End identities.

(* ---- messages ---- *)
Ltac same_blocks := match goal with E : ext _ _ _ _ ?h |- ext _ _ _ _ ?h => eapply ext_perm; [|exact E]; solve_perm end.
Lemma own_in_memory secret W h0 X h b : ext secret W h0 (buf_cells b ++ X) h -> in_memory h (buf_cells b).
Proof.
  intros (L & _ & _ & B & C & _). unfold buf_cells in *. rewrite map_app in B. apply nodup_r in B. rewrite map_app in B. apply nodup_l in B.
  split; [exact B|]. intros x c I. apply (C x c). apply in_or_app. right. apply in_or_app. left. exact I.
Qed.
Ltac own_input b := at_heap ltac:(fun E => pull E (buf_cells b); eapply input_wp; [exact E|exact (own_in_memory _ _ _ _ _ _ E)|]).
#[export] Instance storage_keys_message_rule : Parses h_storage_keys_from_message sk_cells sk_value (fun m => storage_keys_create_from_proto (Some m))
  no_bytes [T_cipher_key] (fun _ _ => False).
Proof.
  start_parse h_storage_keys_from_message. destruct (ps_local b) eqn:I; [|pgo storage_keys_create_from_proto].
  destruct (ps_remote b) eqn:T; pgo storage_keys_create_from_proto.
Qed.
#[export] Instance root_key_message_rule : Parses h_root_key_from_message tr_cells tr_value (fun m => lift (root_key_from_proto m))
  no_bytes [] (fun _ _ => False).
Proof.
  start_parse h_root_key_from_message. destruct (prk_secret b) eqn:I1; [|pgo root_key_from_proto].
  destruct (prk_cipher b) eqn:I2; [|pgo root_key_from_proto].
  destruct (prk_send b) eqn:I3; [|pgo root_key_from_proto].
  destruct (prk_recv b) eqn:I4; pgo root_key_from_proto.
Qed.
Definition payload_from_message (m : pb_payload) : res payload :=
  lift match buffer_create (obytes (pm_tag (pp_meta m))) with
       | None => None
       | Some tag =>
           match packet_meta_create (pe_ttl (pm_eph (pp_meta m))) (match pe_bor (pm_eph (pp_meta m)) with Some x => x | None => 0 end) (Some tag)
                   (match pm_type (pp_meta m) with Some t => t | None => 0 end) with
           | None => None
           | Some meta => match buffer_create (pp_body m) with
                          | None => None
                          | Some body => payload_create (Some meta) (Some body)
                          end
           end
       end.
Lemma packet_meta_make_wp secret (U W : Prop) fails h0 X h ttl bor tag ty (Q : option hme -> heap -> Prop) :
  ext secret W h0 (buf_cells tag ++ X) h -> (forall n, fails n T_packet_meta = true -> U) ->
  (forall t h1, ext secret W h0 (me_cells t ++ X) h1 -> me_value t = {| me_ttl := ttl; me_bor := bor; me_tag := b_bytes tag; me_type := ty |} -> Q (Some t) h1) ->
  wp U fails (h_packet_meta_create ttl bor (Some tag) ty) h Q.
Proof.
  intros E HU QS. unfold h_packet_meta_create. wstep. wstep; [destruct H as (n & F); exact (HU n F)|]. wstep. apply QS; [|reflexivity].
  unfold me_cells. cbn. eapply ext_perm; [|exact E0]. solve_perm.
Qed.
Lemma keeps_meta secret t ttl bor ty v : keeps_secret secret [v] -> me_value t = {| me_ttl := ttl; me_bor := bor; me_tag := v; me_type := ty |} ->
  keeps_secret secret (me_plain (me_value t)).
Proof. intros K ->. exact K. Qed.
#[export] Instance payload_message_rule : Parses h_payload_from_message py_cells py_value payload_from_message
  payload_public [T_packet_meta] (fun _ _ => False).
Proof.
  start_parse h_payload_from_message. unfold payload_public in K.
  wstep. pstep; [wstep; ppost payload_from_message|wstep; ppost payload_from_message|].
  assert (K' : keeps_secret secret [b_bytes b0]) by (rewrite (buffer_create_same _ _ V); exact K).
  wstep. eapply packet_meta_make_wp; [exact E0|intros n F; eapply HU; [left; reflexivity|exact F]|]. intros m h2 E2 VM. clear E0.
  pose proof (keeps_meta _ _ _ _ _ _ K' VM) as KM.
  wstep. pstep.
  - eapply (proj2 packet_meta_destroy_rule); [exact E|exact KM|]. intros h4 E4. clear E. ppost payload_from_message.
  - eapply (proj2 packet_meta_destroy_rule); [exact E|exact KM|]. intros h4 E4. clear E. ppost payload_from_message.
  - wstep. unfold h_payload_create. wstep. wstep.
    + wstep. wstep. at_heap ltac:(fun E => pull E (me_cells m); eapply (proj2 packet_meta_destroy_rule); [exact E|exact KM|]; clear E). intros h5 E5.
      wdestroy. ppost payload_from_message.
    + wstep. wstep. apply QS.
      * unfold py_cells. cbn. same_blocks.
      * agree payload_from_message. unfold py_value. cbn. rewrite VM. reflexivity.
Qed.
Ltac leak_more ::= split; [congruence|first [right; assumption|right; solve [failed]|left; solve [agree stream_key_create_from_proto]]].
#[export] Instance stream_key_message_rule : Parses h_stream_key_from_message st_cells st_value stream_key_create_from_proto
  no_bytes [T_cipher_key] (fun fails m => pst_user m <> None /\ (stream_key_create_from_proto m = Null \/ some_failure fails)).
Proof.
  start_parse h_stream_key_from_message. destruct (pst_cipher_key b) eqn:I1; [|pgo stream_key_create_from_proto].
  destruct (pst_evo b) eqn:I2; [|pgo stream_key_create_from_proto].
  destruct (pst_ppe b) eqn:I3; [|pgo stream_key_create_from_proto].
  wstep. pstep; [pgo stream_key_create_from_proto|pgo stream_key_create_from_proto|].
  wstep. own_input b0. wparse.
  - pgo stream_key_create_from_proto.
  - pgo stream_key_create_from_proto.
  - wstep. wdestroy. destruct (pst_user b) eqn:I4.
    + pgo stream_key_create_from_proto.
    + pgo stream_key_create_from_proto.
Qed.
#[export] Instance key_exchange_message_rule : Parses h_key_exchange_from_message kx_cells kx_value key_exchange_create_with_proto
  exchange_public [T_cipher_result; T_key_exchange] (fun _ _ => False).
Proof.
  start_parse h_key_exchange_from_message. unfold exchange_public in K. branch; [pgo key_exchange_create_with_proto|].
  wstep. pstep; [pgo key_exchange_create_with_proto|pgo key_exchange_create_with_proto|].
  assert (V' := V). rewrite (buffer_create_same _ _ V) in V'.
  wstep. own_input b0. rewrite (buffer_create_same _ _ V).
  assert (K1 : keeps_secret secret (sections (px_data b))) by (refine (keeps_sub _ _ _ K _); intros y I; right; right; exact I).
  wparse. all: pgo key_exchange_create_with_proto.
Qed.
#[export] Instance key_exchange_sourced : Sourced key_exchange_create_with_proto kx_plain exchange_public.
Proof.
  intros m v V. unfold key_exchange_create_with_proto in V. invert V. unfold key_exchange_create in V. invert V.
  apply buffer_create_same in V1. subst. unfold kx_plain, exchange_public. cbn [kx_id kx_text]. intros y [<-|I]; [left; reflexivity|right; right].
  destruct (buffer_create (px_data m)) as [d|] eqn:D; [|discriminate V0]. apply buffer_create_same in D. subst d.
  exact (cipher_result_sourced _ _ V0 _ I).
Qed.
Definition items_plain (done : list hkx) : list bytes := xa_plain (map (fun x => Some (kx_value x)) done).
Lemma items_cells (done : list hkx) (y : list (option hkx)) n :
  flat_map (cells_opt kx_cells) (map Some done ++ y ++ repeat None n) = flat_map kx_cells done ++ flat_map (cells_opt kx_cells) y.
Proof.
  rewrite !flat_map_app. f_equal.
  - induction done as [|x done IH]; [reflexivity|]. cbn. rewrite IH. reflexivity.
  - rewrite <- (app_nil_r (flat_map (cells_opt kx_cells) y)) at 2. f_equal. induction n as [|n IH]; [reflexivity|exact IH].
Qed.
Lemma items_public done n : xa_plain (map (option_map kx_value) (map Some done ++ repeat None n)) = items_plain done.
Proof.
  unfold xa_plain, items_plain. rewrite map_app, all_public_app, map_map. cbn [option_map].
  rewrite map_none, all_public_none, app_nil_r. reflexivity.
Qed.
Lemma exchange_items_wp secret (U W : Prop) fails h0 X (Q : option (harr hkx) -> heap -> Prop) :
  (forall n ty, In ty [T_cipher_result; T_key_exchange] -> fails n ty = true -> U) ->
  forall l done a h, harr_items a = (map Some done ++ repeat None (length l))%list ->
  ext secret W h0 (xa_cells a ++ X) h -> keeps_secret secret (flat_map exchange_public l) -> keeps_secret secret (items_plain done) ->
  (forall h1, ext secret W h0 X h1 -> exchange_items_from_proto l = Null \/ some_failure fails -> Q None h1) ->
  (forall a' vs h1, ext secret W h0 (xa_cells a' ++ X) h1 -> exchange_items_from_proto l = Val vs ->
     xa_value a' = (map (fun x => Some (kx_value x)) done ++ vs)%list -> Q (Some a') h1) ->
  wp U fails (h_exchange_items l (length done) a) h Q.
Proof.
  intros HU. induction l as [|m l IH]; intros done a h I E K KD QN QS; cbn [h_exchange_items].
  - wstep. cbn [length repeat] in I. rewrite app_nil_r in I. apply (QS a []); [exact E|reflexivity|].
    unfold xa_value, arr_value. rewrite I, map_map, app_nil_r. reflexivity.
  - cbn [flat_map] in K. assert (K1 : keeps_secret secret (exchange_public m)) by (refine (keeps_sub _ _ _ K _); intros y J; apply in_or_app; left; exact J).
    assert (K2 : keeps_secret secret (flat_map exchange_public l)) by (refine (keeps_sub _ _ _ K _); intros y J; apply in_or_app; right; exact J).
    assert (KA : keeps_secret secret (xa_plain (xa_value a))) by (unfold xa_value, arr_value; rewrite I, items_public; exact KD).
    wstep. eapply (key_exchange_message_rule _ U W); [exact HU|intros []|exact E|exact K1| |].
    + intros h1 E1 F. eapply (proj2 exchange_array_destroy_rule); [exact E1|exact KA|]. intros h2 E2. apply QN; [exact E2|].
      destruct F as [F|F]; [left|right; exact F]. cbn [exchange_items_from_proto]. rewrite F. reflexivity.
    + intros x h1 E1 V. wstep. unfold h_array_put. wstep. unfold xa_cells, arr_cells in E1. norm E1. wstep.
      rewrite I. rewrite nth_error_app2 by (rewrite map_length; lia). rewrite map_length, Nat.sub_diag. cbn [length repeat nth_error]. wstep. cbn [fst snd].
      rewrite firstn_app, map_length, Nat.sub_diag, firstn_O, app_nil_r. rewrite (firstn_all2 (map Some done)) by (rewrite map_length; lia).
      rewrite skipn_app, map_length. rewrite (skipn_all2 (map Some done)) by (rewrite map_length; lia).
      replace (S (length done) - length done)%nat with 1%nat by lia. cbn [skipn app].
      replace (S (length done)) with (length (done ++ [x])) by (rewrite app_length; cbn; lia).
      eapply IH.
      * cbn [harr_items]. rewrite map_app, <- app_assoc. reflexivity.
      * unfold xa_cells, arr_cells, arr_store. cbn [harr_addr harr_store harr_items].
        pose proof (items_cells done [Some x] (length l)) as C1. pose proof (items_cells done [None] (length l)) as C2. cbn [app] in C1, C2.
        rewrite C1. rewrite I in E1. cbn [length repeat] in E1. rewrite C2 in E1. cbn [flat_map cells_opt app] in *.
        unfold arr_store in E1. rewrite I in E1. rewrite !app_length in *. cbn [length] in *. rewrite !repeat_length, !map_length in *.
        rewrite ?app_nil_r in *. eapply ext_perm; [|exact E1]. solve_perm.
      * exact K2.
      * unfold items_plain. rewrite map_app. unfold xa_plain. rewrite all_public_app.
        split; [exact (proj1 K)|]. intros c J. apply in_app_iff in J. destruct J as [J|J]; [exact (proj2 KD _ J)|].
        cbn in J. rewrite !app_nil_r in J. apply (proj2 K1). exact (key_exchange_sourced _ _ V _ J).
      * intros h2 E2 F. apply QN; [exact E2|]. destruct F as [F|F]; [left|right; exact F]. cbn [exchange_items_from_proto]. rewrite V, F. reflexivity.
      * intros a' vs h2 E2 F VA. apply (QS a' (Some (kx_value x) :: vs)); [exact E2| |].
        -- cbn [exchange_items_from_proto]. rewrite V, F. reflexivity.
        -- rewrite VA, map_app, <- app_assoc. reflexivity.
Qed.
Lemma array_new_wp {T} (cells : T -> list cell) secret (U W : Prop) fails h0 X h n (Q : option (harr T) -> heap -> Prop) :
  n <> 0%nat -> ext secret W h0 X h -> keeps_secret secret [] ->
  (forall h1, ext secret W h0 X h1 -> size_ok (8 * N.of_nat n) = false \/ some_failure fails -> Q None h1) ->
  (forall a h1, ext secret W h0 (arr_cells cells a ++ X) h1 -> size_ok (8 * N.of_nat n) = true -> harr_items a = repeat None n -> Q (Some a) h1) ->
  wp U fails (h_array_new n) h Q.
Proof.
  intros N0 E K QN QS. unfold h_array_new. rewrite (proj2 (Nat.eqb_neq n 0) N0). wstep. destruct (size_cases (8 * N.of_nat n)) as [B|B].
  - unfold h_buffer_create_empty. rewrite B. wstep. wstep. apply QN; [exact E|left]. unfold size_ok. lia.
  - eapply buffer_create_empty_wp; [exact B|exact E|exact K| |].
    + intros h1 E1 F. wstep. apply QN; [exact E1|right; exact F].
    + intros b h1 E1 Vb. wstep. clear E. wstep.
      * eapply (proj2 (destroy_has (destroy := h_buffer_destroy))); [exact E| |].
        -- split; [exact (proj1 K)|]. intros c [<-|[]]. rewrite Vb. apply (proj1 K).
        -- intros h3 E3. apply QN; [exact E3|right; failed].
      * wstep. apply QS; [|unfold size_ok; lia|reflexivity].
        unfold arr_cells. cbn [harr_addr harr_items arr_store harr_store option_map cells_opt].
        replace (flat_map (cells_opt cells) (repeat None n)) with (@nil cell).
        -- unfold store_buf. rewrite repeat_length. destruct b as [ba bd bb]. cbn [b_addr b_data b_bytes fst snd] in *. subst bb.
           rewrite app_nil_r, <- app_assoc. exact E.
        -- clear; induction n as [|k IHk]; [reflexivity|exact IHk].
Qed.
Lemma items_sourced l : forall vs, exchange_items_from_proto l = Val vs -> incl (xa_plain vs) (flat_map exchange_public l).
Proof.
  induction l as [|m l IH]; intros vs V; cbn [exchange_items_from_proto] in V.
  - injection V as <-. intros c [].
  - invert V. intros c I. cbn [flat_map]. unfold xa_plain in I. cbn [all_public flat_map] in I. apply in_or_app.
    apply in_app_iff in I. destruct I as [I|I]; [left; cbn [opt_list flat_map] in I; rewrite app_nil_r in I; exact (key_exchange_sourced _ _ V0 _ I)|right; exact (IH _ V1 _ I)].
Qed.
#[export] Instance exchange_set_message_rule P : Parses (h_exchange_set_from_message P) xs_cells xs_value (fun m => exchange_set_create_with_proto P m)
  exchange_set_public [T_cipher_result; T_key_exchange; T_ec_key] (fun _ _ => False).
Proof.
  start_parse h_exchange_set_from_message. unfold exchange_set_public in K. cbv zeta.
  destruct ((N.of_nat (length (py_exchanges b)) =? 0) || (INT32_MAX <? N.of_nat (length (py_exchanges b))) || (blen (py_sender b) =? 0)) eqn:C.
  { pgo exchange_set_create_with_proto. }
  assert (OK : exchange_array_ok (N.of_nat (length (py_exchanges b))) = size_ok (8 * N.of_nat (length (py_exchanges b)))).
  { unfold exchange_array_ok. rewrite N.mod_small by (unfold two64, INT32_MAX in *; lia).
    destruct (N.of_nat (length (py_exchanges b)) =? 0) eqn:Z; [discriminate C|reflexivity]. }
  assert (N0 : length (py_exchanges b) <> 0%nat) by (intros Z; rewrite Z in C; discriminate C).
  wstep. eapply (array_new_wp kx_cells); [exact N0|exact E|pkept| |].
  { intros h1 E1 [F|F]; wstep; (apply QN; [exact E1|]); [left|right; exact F].
    unfold exchange_set_create_with_proto. cbv zeta. rewrite C, OK, F. reflexivity. }
  intros a h1 E1 S I. wstep. change 0%nat with (length (@nil hkx)).
  eapply exchange_items_wp; [|exact I|exact E1|exact K|split; [exact (proj1 K)|intros c []]| |].
  { intros n ty J F. apply (HU n ty); [|exact F]. destruct J as [<-|[<-|[]]]; [left; reflexivity|right; left; reflexivity]. }
  { intros h2 E2 [F|F]; wstep; (apply QN; [exact E2|]); [left|right; exact F].
    unfold exchange_set_create_with_proto. cbv zeta. rewrite C, OK, S. cbn [negb]. rewrite F. reflexivity. }
  intros a' vs h2 E2 VI VA. cbn [map app] in VA. wstep.
  assert (KA : keeps_secret secret (xa_plain (xa_value a'))).
  { rewrite VA. refine (keeps_sub _ _ _ K _). exact (items_sourced _ _ VI). }
  assert (G : forall h4, ext secret W h0 (xa_cells a' ++ X) h4 -> lift (ec_key_import P (Some (py_sender b)) false) = Null \/ some_failure fails ->
     wp U fails (h_exchange_array_destroy (Some a')) h4 (fun _ h => Q None h)).
  { intros h4 E4 F. eapply (proj2 exchange_array_destroy_rule); [exact E4|exact KA|]. intros h5 E5. apply QN; [exact E5|].
    destruct F as [F|F]; [left|right; exact F]. unfold exchange_set_create_with_proto. cbv zeta. rewrite C, OK, S. cbn [negb]. rewrite VI. cbn [rbind]. rewrite F. reflexivity. }
  clear E E1. eapply (ec_key_import_rule P false _ U W); [|intros (F & _); discriminate F|exact E2|split; [exact (proj1 K)|intros c []]| |].
  { intros n ty J F. apply (HU n ty); [|exact F]. destruct J as [<-|[]]. right; right; left; reflexivity. }
  { intros h3 E3 F. exact (G _ E3 F). }
  intros k h3 E3 VK. clear E2. wstep. unfold h_exchange_set_create. wstep. wstep.
  - wstep. wstep. at_heap ltac:(fun E => pull E (xa_cells a'); eapply (proj2 exchange_array_destroy_rule); [exact E|exact KA|]; clear E).
    intros h5 E5. wdestroy. apply QN; [exact E|right; failed].
  - wstep. wstep. apply QS.
    + unfold xs_cells. cbn. same_blocks.
    + unfold exchange_set_create_with_proto. cbv zeta. rewrite C, OK, S. cbn [negb]. rewrite VI. cbn [rbind]. rewrite VK. cbn [rbind].
      unfold exchange_set_create, xs_value. cbn. rewrite VA. reflexivity.
Qed.
(* ---- packets ---- *)
Lemma slice_slice (b : bytes) s l s' l' : slice (slice b s l) s' l' = slice b (s + s') (Nat.min l' (l - s')).
Proof.
  unfold slice. rewrite skipn_firstn_comm, firstn_firstn. f_equal. revert s'. induction s as [|s IH] in b |- *; intros s'; [reflexivity|].
  destruct b as [|c b]; [rewrite !skipn_nil; reflexivity|]. exact (IH b s').
Qed.
Lemma sections_sections b c : In c (sections b) -> incl (sections c) (sections b).
Proof.
  intros I. unfold sections in I. apply in_flat_map in I. destruct I as (s & _ & I). apply in_map_iff in I. destruct I as (l & <- & _).
  intros y J. unfold sections at 1 in J. apply in_flat_map in J. destruct J as (s' & _ & J). apply in_map_iff in J. destruct J as (l' & <- & _).
  rewrite slice_slice. apply in_sections.
Qed.
Lemma memread_section b s l v : memread b s l = Val v -> v = slice b (N.to_nat s) (N.to_nat l).
Proof. unfold memread. destruct (s + l <=? blen b); [|discriminate]. intros V. injection V as <-. reflexivity. Qed.
Lemma memread_tail b n v : n <= blen b -> memread b (blen b - n) n = Val v -> v = skipn (length b - N.to_nat n) b.
Proof.
  intros L V. apply memread_section in V. rewrite V. unfold slice, blen in *. rewrite firstn_all2 by (rewrite skipn_length; lia). f_equal. lia.
Qed.
#[export] Instance ecdsa_result_sourced' : Sourced (fun b => ecdsa_result_create_from_buffer (Some b)) sig_plain sections.
Proof. intros b v V. exact (ecdsa_result_sourced _ _ V). Qed.
#[export] Instance packet_parse_rule : Parses h_packet_from_bytes pt_cells pt_value (fun b => packet_create_from_buffer (Some b)) sections
  [T_ecdsa_result] (fun _ b => odd_signature b).
Proof.
  start_parse h_packet_from_bytes. cbv zeta. 
  branch; [pgo packet_create_from_buffer|]. pstep. branch; [pgo packet_create_from_buffer|]. pstep.
  apply wp_step; [intros V2; destruct (lift_ub _ V2)|intros N; facts; pgo packet_create_from_buffer|intros curve V2; facts].
  branch; [pgo packet_create_from_buffer|]. pstep.
  assert (I1 : incl (sections a1) (sections b)) by (apply sections_sections; rewrite (memread_section _ _ _ _ V1); apply in_sections).
  assert (T1 : a1 = skipn (length b - N.to_nat (signature_size P521)) b).
  { destruct curve. apply (memread_tail b (signature_size P521)); [|exact V1]. unfold blen in *. lia. }
  wstep. wparse.
  - pgo packet_create_from_buffer.
  - pgo packet_create_from_buffer.
  - assert (KS : keeps_secret secret (sig_plain (sig_value t))).
    { refine (keeps_sub _ _ _ K _). intros c I. apply I1. exact (ecdsa_result_sourced' _ _ V3 _ I). }
    change (hsig_digest t) with (es_digest (sig_value t)). change (hsig_curve t) with (es_curve (sig_value t)).
    destruct (negb (digest_id (es_digest (sig_value t)) =? digest_id (digest_matching_curve curve)) || negb (curve_id (es_curve (sig_value t)) =? curve_id curve)) eqn:C.
    + wstep. assert (OS : odd_signature b).
      { exists (sig_value t). split; [rewrite <- T1; exact V3|]. intros Z. rewrite Z in C. destruct curve, (es_curve (sig_value t)). discriminate C. }
      ppost packet_create_from_buffer.
    + wstep. pstep.
      * at_heap ltac:(fun E => pull E (sig_cells t); eapply (proj2 (destroy_has (destroy := h_ecdsa_result_destroy))); [exact E|exact KS|]; clear E).
        intros h5 E5. ppost packet_create_from_buffer.
      * at_heap ltac:(fun E => pull E (sig_cells t); eapply (proj2 (destroy_has (destroy := h_ecdsa_result_destroy))); [exact E|exact KS|]; clear E).
        intros h5 E5. ppost packet_create_from_buffer.
      * wstep. unfold h_packet_create. wstep. wstep.
        -- wstep. wstep. at_heap ltac:(fun E => pull E (sig_cells t); eapply (proj2 (destroy_has (destroy := h_ecdsa_result_destroy))); [exact E|exact KS|]; clear E).
           intros h5 E5. wdestroy. ppost packet_create_from_buffer.
        -- wstep. wstep. ppost packet_create_from_buffer.
Qed.

Definition tpacket_rest (meta : tmeta) (start_pos mac_size : N) (b : bytes) : res tpacket :=
  if blen b <=? start_pos + mac_size then Null
  else
    rbind (if mac_size =? 0 then Val None else rbind (lift (buffer_copy_section b (blen b - mac_size) mac_size)) (fun x => Val (Some x))) (fun mac =>
    rbind (lift (buffer_copy_section b start_pos (blen b - mac_size - start_pos))) (fun body =>
    rbind (lift (tpacket_create meta (Some body))) (fun pkt =>
    rbind (lift (buffer_create b)) (fun net => Val (set_network (set_mac pkt mac) (Some net)))))).
#[export] Instance tpacket_parse_rule : Parses h_tpacket_from_bytes tp_cells tp_value (fun b => tpacket_create_from_buffer (Some b)) tpacket_public
  [] (fun _ _ => False).
Proof.
  start_parse h_tpacket_from_bytes. unfold tpacket_public in K.
  assert (KS : keeps_secret secret (sections b)) by (refine (keeps_sub _ _ _ K _); intros c I; right; exact I).
  apply wp_step; [intros V; destruct (Verif.Proofs.TransportPacketFacts.meta_parse_safe _ V)|intros V; ppost tpacket_create_from_buffer|intros (m & s) V]. cbv zeta.
  assert (R : tpacket_create_from_buffer (Some b) = tpacket_rest m s (if tm_mac m =? MAC_EC_P521 then signature_size P521 else 0) b)
    by (unfold tpacket_create_from_buffer; rewrite V; reflexivity).
  cbv beta in QN, QS. rewrite R in QN, QS. clear R. set (ms := if tm_mac m =? MAC_EC_P521 then signature_size P521 else 0) in *. clearbody ms.
  branch; [pgo tpacket_rest|]. destruct (ms =? 0) eqn:C.
  all: pgo tpacket_rest.
  all: unfold h_tpacket_destroy; cbn [htp_addr htp_network htp_body htp_mac]; pgo tpacket_rest.
Qed.

(* ---- from the bytes of a message ---- *)
Ltac by_message := intros b; cbn; destruct (_ b); reflexivity.
Lemma never_fails : ~ some_failure never.
Proof. intros (n & ty & F). discriminate F. Qed.
Section bytes.
  Context (P : prims).
  Lemma identity_bytes_rule : parse_rule id_cells id_value (fun b => identity_create_from_buffer P (Some b))
    (of_message pb_identity_unpack identity_fields (identity_public P)) [T_ec_key; T_ecdsa_result] leaks_on_failure (h_identity_from_bytes P).
  Proof.
    unfold h_identity_from_bytes. eapply (from_proto_rule _ _ _ _ _ (fun m => identity_create_from_proto P (Some m)) _ _ (fun f _ => some_failure f) (identity_create_from_buffer P)).
    - intros secret U W fails h0 X h m Q. apply (identity_message_rule P secret U W fails h0 X h (Some m) Q).
    - intros b. cbn. destruct (pb_identity_unpack b); reflexivity.
    - intros fails b m _ F. exact F.
  Qed.
  Lemma chain_bytes_rule : parse_rule ch_cells ch_value (fun b => chain_create_from_buffer P (Some b))
    (of_message pb_chain_unpack chain_fields (chain_public P)) [T_ec_key; T_ecdsa_result] leaks_on_failure (h_chain_from_bytes P).
  Proof.
    unfold h_chain_from_bytes. eapply (from_proto_rule _ _ _ _ _ (fun m => chain_create_from_proto P (Some m)) _ _ (fun f _ => some_failure f) (chain_create_from_buffer P)).
    - intros secret U W fails h0 X h m Q. apply (chain_message_rule P secret U W fails h0 X h (Some m) Q).
    - intros b. cbn. destruct (pb_chain_unpack b); reflexivity.
    - intros fails b m _ F. exact F.
  Qed.
  Lemma keypair_bytes_rule : parse_rule kp_cells kp_value (fun b => keypair_create_from_buffer P (Some b))
    (of_message pb_keypair_unpack keypair_fields keypair_public) [T_ec_key; T_ecdsa_result] never_leaks (h_keypair_from_bytes P).
  Proof.
    unfold h_keypair_from_bytes. eapply (from_proto_rule _ _ _ _ _ (fun m => keypair_create_from_proto P (Some m)) _ _ (fun f _ => False) (keypair_create_from_buffer P)).
    - intros secret U W fails h0 X h m Q. apply (keypair_message_rule P secret U W fails h0 X h (Some m) Q).
    - intros b. cbn. destruct (pb_keypair_unpack b); reflexivity.
    - intros fails b m _ F. exact F.
  Qed.
  Lemma node_bytes_rule : parse_rule nd_cells nd_value (fun b => node_create_from_buffer P (Some b))
    (of_message pb_node_unpack node_fields (node_public P)) [T_ec_key; T_ecdsa_result] leaks_on_failure (h_node_from_bytes P).
  Proof.
    unfold h_node_from_bytes. eapply (from_proto_rule _ _ _ _ _ (fun m => node_create_from_proto P (Some m)) _ _ (fun f _ => some_failure f) (node_create_from_buffer P)).
    - exact (node_message_rule P).
    - intros b. cbn. destruct (pb_node_unpack b); reflexivity.
    - intros fails b m _ F. exact F.
  Qed.
  Lemma root_keys_bytes_rule : parse_rule rk_cells rk_value (fun b => root_keys_create_from_buffer P (Some b))
    (of_message pb_root_keys_unpack root_keys_fields (root_keys_public P)) [T_ec_key; T_cipher_key] leaks_on_failure (h_root_keys_from_bytes P).
  Proof.
    unfold h_root_keys_from_bytes. eapply (from_proto_rule _ _ _ _ _ (root_keys_from_message P) _ _ (fun f _ => some_failure f) (root_keys_create_from_buffer P)).
    - exact (root_keys_message_rule P).
    - intros b. unfold root_keys_create_from_buffer. destruct (pb_root_keys_unpack b); reflexivity.
    - intros fails b m _ F. exact F.
  Qed.
  Lemma exchange_set_bytes_rule : parse_rule xs_cells xs_value (fun b => exchange_set_create_from_buffer P (Some b))
    (of_message pb_exchange_set_unpack exchange_set_fields exchange_set_public) [T_cipher_result; T_key_exchange; T_ec_key] never_leaks (h_exchange_set_from_bytes P).
  Proof.
    unfold h_exchange_set_from_bytes. eapply (from_proto_rule _ _ _ _ _ (exchange_set_create_with_proto P) _ _ (fun f _ => False) (exchange_set_create_from_buffer P)).
    - exact (exchange_set_message_rule P).
    - intros b. cbn. destruct (pb_exchange_set_unpack b); reflexivity.
    - intros fails b m _ F. exact F.
  Qed.
End bytes.
Lemma storage_keys_bytes_rule : parse_rule sk_cells sk_value (fun b => storage_keys_create_from_buffer (Some b))
  (of_message pb_storage_keys_unpack storage_keys_fields no_bytes) [T_cipher_key] never_leaks h_storage_keys_from_bytes.
Proof.
  unfold h_storage_keys_from_bytes. eapply (from_proto_rule _ _ _ _ _ (fun m => storage_keys_create_from_proto (Some m)) _ _ (fun f _ => False) storage_keys_create_from_buffer).
  - exact storage_keys_message_rule.
  - intros b. cbn. destruct (pb_storage_keys_unpack b); reflexivity.
  - intros fails b m _ F. exact F.
Qed.
Lemma stream_key_bytes_rule : parse_rule st_cells st_value (fun b => stream_key_create_from_buffer (Some b))
  (of_message pb_stream_key_unpack stream_key_fields no_bytes) [T_cipher_key] odd_stream_key h_stream_key_from_bytes.
Proof.
  unfold h_stream_key_from_bytes. eapply (from_proto_rule _ _ _ _ _ stream_key_create_from_proto _ _ (fun fails m => pst_user m <> None /\ (stream_key_create_from_proto m = Null \/ some_failure fails)) stream_key_create_from_buffer).
  - exact stream_key_message_rule.
  - intros b. cbn. destruct (pb_stream_key_unpack b); reflexivity.
  - intros fails b m D F. exists m. split; [exact D|exact F].
Qed.
Lemma payload_bytes_rule : parse_rule py_cells py_value (fun b => lift (payload_create_from_buffer (Some b)))
  (of_message pb_payload_unpack payload_fields payload_public) [T_packet_meta] never_leaks h_payload_from_bytes.
Proof.
  unfold h_payload_from_bytes. eapply (from_proto_rule _ _ _ _ _ payload_from_message _ _ (fun f _ => False) (fun b => lift (payload_create_from_buffer b))).
  - exact payload_message_rule.
  - intros b. cbn. destruct (pb_payload_unpack b); reflexivity.
  - intros fails b m _ F. exact F.
Qed.
Lemma odd_never b : ~ (exists m, pb_stream_key_unpack b = Some m /\ pst_user m <> None /\ stream_key_create_from_proto m = Null) -> ~ odd_stream_key never b.
Proof. intros N (m & D & U & [F|F]); [apply N; exists m; auto|exact (never_fails F)]. Qed.
Lemma public_import_rule P : parse_rule key_cells key_value (fun b => lift (ec_key_import P (Some b) false)) no_bytes [T_ec_key] never_leaks (h_ec_key_import P false).
Proof.
  intros secret U W fails h0 X h b Q HU HW. apply (ec_key_import_rule P false secret U W fails h0 X h b Q HU). intros (F & _). discriminate F.
Qed.
Lemma private_import_rule P : parse_rule key_cells key_value (fun b => lift (ec_key_import P (Some b) true)) (import_public P true) [T_ec_key] leaks_on_failure (h_ec_key_import P true).
Proof.
  intros secret U W fails h0 X h b Q HU HW. apply (ec_key_import_rule P true secret U W fails h0 X h b Q HU). intros (_ & F). exact (HW F).
Qed.
