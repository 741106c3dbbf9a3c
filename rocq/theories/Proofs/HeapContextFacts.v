(* Rules for the functions of Model/HeapContext.v. *)
From Verif.Base Require Import Bytes Monad.
From Verif.Model Require Import Buffer Cipher Ecdsa Kdf Prims Engine Fingerprint Identity Node Keys Stream Handshake Ctx Proto Heap HeapObjects HeapMessages HeapParse HeapWrite HeapEngine HeapProtocol HeapGenerate HeapContext.
From Verif.Spec Require Import HeapSpec HeapObjectSpec BufferSpec CopySpec HeapParseSpec HeapWriteSpec HeapEngineSpec HeapProtocolSpec HeapGenerateSpec HeapContextSpec.
From Verif.Spec Require Import CodecSpec IdentitySpec KeysSpec.
From Verif.Proofs Require Import BytesFacts BufferFacts IdentityFacts IdentityProps KeysFacts ParserFacts HeapFacts HeapObjectFacts HeapMessageFacts HeapCtxFacts HeapParseFacts HeapWriteFacts HeapEngineFacts HeapKdfFacts HeapProtocolFacts HeapExchangeFacts HeapPacketFacts HeapReadingFacts HeapGenerateFacts.
From Coq Require Import Permutation ZifyBool ZifyNat ZifyN.
Local Open Scope N_scope.

(* ---- changing an object ---- *)
Definition change_rule {A} (args : list (list cell)) (owned : list cell) (left : A -> list cell) (right : schedule -> A -> Prop)
  (public exposed : list bytes) (untested : list ctype) (leak : schedule -> Prop) (op : H A) : Prop :=
  forall secret (U W : Prop) fails h0 X h (Q : A -> heap -> Prop),
    (forall n ty, In ty untested -> fails n ty = true -> U) -> (leak fails -> W) ->
    ext secret W h0 (owned ++ X) h -> all_in_memory h args -> keeps_secret secret public -> (some_failure fails -> keeps_secret secret exposed) ->
    (forall a h1, ext secret W h0 (left a ++ X) h1 -> right fails a -> Q a h1) ->
    wp U fails op h Q.
Lemma change_sound {A} args owned (left : A -> list cell) right public exposed untested leak op :
  change_rule args owned left right public exposed untested leak op -> changes_in_memory args owned left right public exposed untested leak op.
Proof.
  intros R secret fails h OK M MA AP K KE.
  pose (U := exists n ty, In ty untested /\ fails n ty = true).
  pose (Q := fun (a : A) h' => exists leaked, (leaked = [] \/ leak fails) /\ changed h owned (leaked ++ left a) h' /\ wiped secret h h' /\ right fails a).
  assert (G : wp U fails op h Q).
  { eapply R with (W := leak fails) (h0 := without h owned) (X := []); try eassumption.
    - intros n ty I F. exists n, ty. split; assumption.
    - auto.
    - exists []. split; [left; reflexivity|]. rewrite app_nil_r. cbn [app]. apply ext0_without; assumption.
    - intros a h1 (L & B & E) F. rewrite app_nil_r in E. exists L. split; [exact B|]. destruct E as (O & N & C & D & Wp). split; [|split; [exact Wp|exact F]].
      split; [exact O|]. split; [split; [exact N|intros b c I; apply (C b c I)]|]. split; [|split].
      + intros b I NO. apply in_map_iff in I. destruct I as ((b' & c) & <- & I). cbn [fst] in *. rewrite <- (proj2 (C b' c I)). symmetry. apply without_out. exact NO.
      + intros b I NN. rewrite (D b NN). apply without_in. exact I.
      + intros b NO NN. rewrite (D b NN). apply without_out. exact NO. }
  unfold wp in G. destruct (op fails h) as [[a h']|]; exact G.
Qed.
Lemma change_clean {A} args owned (left : A -> list cell) right (right' : A -> Prop) public exposed untested leak op :
  changes_in_memory args owned left right public exposed untested leak op -> ~ leak never -> (forall a, right never a -> right' a) -> changes_cleanly args owned left right' public op.
Proof.
  intros R NL RR secret h OK M MA AP K. specialize (R secret never h OK M MA AP K (fun F => match never_fails F with end)).
  destruct (op never h) as [[a h']|].
  - destruct R as (L & [->|F] & G & B & V); [|contradiction]. exists a, h'. repeat split; try apply G; try assumption. apply RR. exact V.
  - destruct R as (n & ty & _ & F). discriminate F.
Qed.
Lemma change_strict {A} args owned (left : A -> list cell) right public op :
  changes_in_memory args owned left right public [] [] never_leaks_op op -> changes_safely args owned left right public op.
Proof.
  intros R secret fails h OK M MA AP K. specialize (R secret fails h OK M MA AP K (fun _ => keeps_sub _ _ _ K (incl_nil_l _))).
  destruct (op fails h) as [[a h']|].
  - destruct R as (L & [->|[]] & G & B & V). exists a, h'. repeat split; try apply G; assumption.
  - destruct R as (n & ty & [] & _).
Qed.
Lemma change_hides {A} args owned (left : A -> list cell) right public untested leak op :
  changes_in_memory args owned left right public [] untested leak op -> hides_change args owned public op.
Proof.
  intros R secret fails h OK M MA AP K. specialize (R secret fails h OK M MA AP K (fun _ => keeps_sub _ _ _ K (incl_nil_l _))).
  destruct (op fails h) as [[a h']|]; [|exact I]. destruct R as (L & _ & _ & B & _). exact B.
Qed.
Lemma change_hides_all {A} args owned (left : A -> list cell) right public exposed untested leak op :
  changes_in_memory args owned left right public exposed untested leak op -> hides_change args owned (public ++ exposed) op.
Proof.
  intros R secret fails h OK M MA AP K.
  specialize (R secret fails h OK M MA AP (keeps_sub _ _ _ K (incl_appl _ (incl_refl _))) (fun _ => keeps_sub _ _ _ K (incl_appr _ (incl_refl _)))).
  destruct (op fails h) as [[a h']|]; [|exact I]. destruct R as (L & _ & _ & B & _). exact B.
Qed.
Ltac begin_change :=
  intros secret U W fails h0 X h Q HU HW E M K KE QA; pose proof (keeps_none _ _ K) as K0;
  repeat match goal with
  | M : all_in_memory _ (_ :: _) |- _ => let M1 := fresh "M" in apply all_cons in M; destruct M as (M1 & M)
  | M : all_in_memory _ [] |- _ => clear M
  end.
(* reading something of the present heap *)
Ltac rdh := wstep; match goal with |- wp _ _ (h_bytes ?b) ?h _ =>
  let B := fresh in
  first [match goal with M : in_memory h (buf_cells b) |- _ => pose proof (here_bytes _ _ M) as B end
        |match goal with E : ext _ _ _ _ h |- _ => pull E (buf_cells b); pose proof (new_bytes _ _ _ _ _ _ E) as B end];
  eapply bytes_wp; [exact (proj1 B)|exact (proj2 B)|]; clear B end.
Lemma opt_parts {T} (cells : T -> list cell) h o t : in_memory h (cells_opt cells o) -> o = Some t -> in_memory h (cells t).
Proof. intros M ->. exact M. Qed.

(* asking without changing anything *)
Definition told_rule (args : list (list cell)) (right : schedule -> bool -> Prop) (public : list bytes) (untested : list ctype) (op : H bool) : Prop :=
  forall secret (U W : Prop) fails h (Q : bool -> heap -> Prop),
    (forall n ty, In ty untested -> fails n ty = true -> U) -> heap_ok h -> all_in_memory h args -> keeps_secret secret public ->
    (forall b h1, ext secret W h [] h1 -> right fails b -> Q b h1) -> wp U fails op h Q.
Lemma told_call args right public untested op : told_rule args right public untested op ->
  forall secret (U W : Prop) fails h0 X h (Q : bool -> heap -> Prop),
    (forall n ty, In ty untested -> fails n ty = true -> U) -> ext secret W h0 X h -> all_in_memory h args -> keeps_secret secret public ->
    (forall b h1, ext secret W h0 X h1 -> right fails b -> Q b h1) -> wp U fails op h Q.
Proof.
  intros R secret U W fails h0 X h Q HU E M K QS. eapply R with (W := W); try eassumption.
  - eapply ext_ok; exact E.
  - intros b h1 E1 F. apply QS; [|exact F]. exact (ext_trans _ _ _ _ _ _ _ E E1).
Qed.
Definition or_no (pure : bool) (fails : schedule) (b : bool) : Prop := b = pure \/ b = false /\ some_failure fails.
Ltac begin_told :=
  intros secret U W fails h Q HU OK M K QA; pose proof (ext_start secret W h OK) as E; pose proof (keeps_none _ _ K) as K0; assert (HW : never_leaks_op fails -> W) by intros [];
  repeat match goal with
  | M : all_in_memory _ (_ :: _) |- _ => let M1 := fresh "M" in apply all_cons in M; destruct M as (M1 & M)
  | M : all_in_memory _ [] |- _ => clear M
  end.
Lemma equal_comm_none y : buffer_is_equal None (Some y) = false.
Proof. reflexivity. Qed.

Section context.
  Context (P : prims).

  (* ---- identity chains ---- *)
  Lemma cache_eq c : chain_make_status_cache P c = match chain_input c (ch_status c) with Some x => Some (p_sha P SHA512 x) | None => None end.
  Proof.
    unfold chain_make_status_cache, chain_input. destruct (id_signature (ch_node c)) as [g|]; [|reflexivity]. destruct (buffer_concat_multi _) as [x|]; [|reflexivity].
    cbn [sha2]. rewrite app_nil_r. reflexivity.
  Qed.
  Lemma chain_input_in c s x : chain_input c s = Some x -> In x (flat_map (fun s => opt_list (chain_input c s)) statuses).
  Proof. intros E. apply in_flat_map. exists s. split; [destruct s; cbn; tauto|]. rewrite E. left. reflexivity. Qed.
  Lemma chain_input_pub c s x : chain_input c s = Some x -> In x (chain_strings P c) /\ In (p_sha P SHA512 x) (chain_strings P c).
  Proof.
    intros E. apply chain_input_in in E. unfold chain_strings, with_digests. rewrite !in_app_iff. split; [left; left; exact E|]. left. right. apply in_map. exact E.
  Qed.
  Lemma chain_cache_rule (R : sha_ok P) c : op_rule buf_cells b_bytes [ch_cells c] (lift (chain_make_status_cache P (ch_value c)))
    (opt_list (chain_input (ch_value c) (hch_status c))) [] buffer_kinds never_leaks_op (h_chain_make_status_cache P c).
  Proof.
    begin. unfold h_chain_make_status_cache. parts M0 ch_cells. inner (hch_root c) id_cells. inner (hch_node c) id_cells. unfold chain_make_status_cache, chain_input in *.
    wstep. wstep. wstep. wstep. wstep. wstep. change (id_signature (ch_node (ch_value c))) with (option_map sig_value (hid_sig (hch_node c))) in *.
    destruct (hid_sig (hch_node c)) as [g|] eqn:G; cbn [option_map] in *; [|wstep; gone; left; reflexivity].
    change (cells_opt sig_cells (Some g)) with (sig_cells g) in *. inner g sig_cells. inner (hid_key (hch_root c)) key_cells. inner (hid_key (hch_node c)) key_cells.
    do 6 wstep. rd. rd. rd. wstep.
    change (ek_pub (id_key (ch_root (ch_value c)))) with (b_bytes (hkey_pub (hid_key (hch_root c)))) in *. change (ek_pub (id_key (ch_node (ch_value c)))) with (b_bytes (hkey_pub (hid_key (hch_node c)))) in *.
    change (es_sig (sig_value g)) with (b_bytes (hsig_data g)) in *. change (ch_status (ch_value c)) with (hch_status c) in *.
    eapply concat_multi_wp; [exact E|exact K0|intros h1 E1 N|intros b h1 E1 V].
    - out. destruct N as [N|F]; [left; rewrite N; reflexivity|right; sfailed].
    - rewrite V in *. cbn [opt_list] in *. call (sha2_rule P R (Some b) None SHA512); cbn [option_map] in *.
      + intros Z. destruct (lift_ub _ Z).
      + rel b; [exact K|]. out. left. exact N.
      + rel b; [exact K|]. out. right. exact F.
      + rel b; [exact K|]. wstep. there. exact V0.
  Qed.
  Lemma has_cache_rule (R : sha_ok P) c : told_rule [ch_cells c] (or_no (chain_has_valid_cache P (ch_value c))) (chain_strings P (ch_value c)) buffer_kinds (h_chain_has_valid_cache P c).
  Proof.
    begin_told. unfold h_chain_has_valid_cache, chain_has_valid_cache, or_no in *. parts M0 ch_cells. wstep. wstep.
    change (ch_cache (ch_value c)) with (option_map b_bytes (hch_cache c)) in *. destruct (hch_cache c) as [v|] eqn:C; cbn [option_map] in *; [|wstep; apply QA; [exact E|left; reflexivity]].
    change (cells_opt buf_cells (Some v)) with (buf_cells v) in *.
    assert (KI : keeps_secret secret (opt_list (chain_input (ch_value c) (hch_status c)))).
    { refine (keeps_sub _ _ _ K _). intros z I. destruct (chain_input (ch_value c) (hch_status c)) as [x|] eqn:D; [|destruct I]. destruct I as [<-|[]]. exact (proj1 (chain_input_pub _ _ _ D)). }
    call (chain_cache_rule R c).
    - intros Z. destruct (lift_ub _ Z).
    - apply lift_null in N. unfold h_bytes_opt. do 2 wstep. rd. unfold h_buffer_destroy. do 3 wstep. apply QA; [assumption|left]. rewrite N. reflexivity.
    - unfold h_bytes_opt. do 2 wstep. rd. unfold h_buffer_destroy. do 3 wstep. apply QA; [assumption|right]. split; [reflexivity|exact F].
    - apply lift_val in V. unfold h_bytes_opt. wstep. rdh. wstep. rd. rel t.
      + refine (keeps_sub _ _ _ K _). intros z [<-|[]]. rewrite cache_eq in V. destruct (chain_input (ch_value c) _) as [x|] eqn:D; [|discriminate]. apply Some_inj' in V. rewrite <- V. exact (proj2 (chain_input_pub _ _ _ D)).
      + repeat wstep. apply QA; [assumption|left]. rewrite V. reflexivity.
  Qed.
  Lemma chain_strings_set c s k : ch_status c = s -> incl (opt_list (chain_input {| ch_root := ch_root c; ch_node := ch_node c; ch_status := k; ch_cache := None |} k)) (chain_strings P c).
  Proof.
    intros _ z I. change (chain_input {| ch_root := ch_root c; ch_node := ch_node c; ch_status := k; ch_cache := None |} k) with (chain_input c k) in I.
    destruct (chain_input c k) as [x|] eqn:D; [|destruct I]. destruct I as [<-|[]]. exact (proj1 (chain_input_pub _ _ _ D)).
  Qed.
  Lemma judge c fails b cache : false = chain_has_valid_cache P c \/ some_failure fails -> b = chain_signed P c \/ b = false /\ some_failure fails ->
    let s := if b then S_VALID else S_INVALID in
    let c' := {| ch_root := ch_root c; ch_node := ch_node c; ch_status := s; ch_cache := cache |} in
    cache = chain_make_status_cache P c' \/ cache = None /\ some_failure fails -> chain_judged P fails c b c'.
  Proof.
    intros C B s c' V. unfold chain_judged. assert (D : some_failure fails \/ (false = chain_has_valid_cache P c /\ b = chain_signed P c /\ cache = chain_make_status_cache P c')) by tauto.
    destruct D as [F|(C1 & B1 & V1)].
    - right. split; [exact F|]. split; [intros ->; destruct B as [B|(B & _)]; [symmetry; exact B|discriminate B]|]. repeat (split; [reflexivity|]). cbn [ch_cache c']. tauto.
    - left. unfold chain_validate. rewrite <- C1. fold (chain_signed P c). rewrite <- B1. unfold chain_update_status_cache, chain_set_status. cbn [ch_root ch_node ch_status]. fold s.
      f_equal. unfold c'. f_equal. rewrite V1. reflexivity.
  Qed.
  Lemma chain_validate_rule (R : sha_ok P) c : change_rule [] (ch_cells c) chain_left (chain_after P c)
    (chain_strings P (ch_value c)) [] (T_openssl :: buffer_kinds) never_leaks_op (h_chain_validate P c).
  Proof.
    begin_change. unfold chain_left, chain_after in *. unfold h_chain_validate. wstep.
    eapply (told_call _ _ _ _ _ (has_cache_rule R c)) with (W := W); [untested_tac|exact E|apply Forall_cons; [exact (made_in_memory _ _ _ _ _ _ E)|apply Forall_nil]|exact K|].
    intros cached h1 E1 C. clear E. unfold or_no in C. destruct cached.
    - wstep. apply QA; [exact E1|]. split; [repeat split|]. left. destruct C as [C|(C & _)]; [|discriminate C]. unfold chain_validate. rewrite <- C. reflexivity.
    - inside c ch_cells. inner (hch_root c) id_cells. inner (hch_node c) id_cells. inner (hid_key (hch_node c)) key_cells. do 6 wstep. wstep.
      eapply (answer_call _ _ _ _ _ (ec_verify_rule P (hid_sig (hch_node c)) (Some (hid_key (hch_root c))) (Some (hkey_pub (hid_key (hch_node c)))))) with (W := W);
        [untested_tac|intros []|exact E1|arguments|exact K0|].
      cbn [option_map]. intros b h2 E2 B. clear E1. set (s := if b then S_VALID else S_INVALID).
      assert (KC : keeps_secret secret (opt_plain (fun x => [x]) (option_map b_bytes (hch_cache c)))).
      { refine (keeps_sub _ _ _ K _). unfold chain_strings. intros z I. apply in_or_app. right. change (ch_cache (ch_value c)) with (option_map b_bytes (hch_cache c)).
        destruct (hch_cache c); [exact I|destruct I]. }
      assert (E3 : ext secret W h0 (oc buf_cells (hch_cache c) ++ ch_cells (hch_set c s None) ++ X) h2).
      { eapply ext_perm; [|exact E2]. unfold ch_cells. cbn [hch_set hch_addr hch_root hch_node hch_cache cells_opt]. change (oc buf_cells (hch_cache c)) with (cells_opt buf_cells (hch_cache c)). solve_perm. }
      clear E2. wstep. assert (D : forall h3, ext secret W h0 (ch_cells (hch_set c s None) ++ X) h3 ->
        wp U fails (cache <-! h_chain_make_status_cache P (hch_set c s None) ;; hret (b, hch_set c s cache))%h h3 Q).
      { intros h3 E4. pose proof (chain_cache_rule R (hch_set c s None)) as RC.
        pose proof (keeps_sub _ _ _ K (chain_strings_set (ch_value c) _ s eq_refl)) as KI.
        call RC.
        - intros Z. destruct (lift_ub _ Z).
        - wstep. apply QA; [exact E|]. cbn [fst snd]. split; [repeat split|]. apply (judge (ch_value c)); [destruct C as [C|(_ & C)]; [left|right]; exact C|exact B|]. left. apply lift_null in N. symmetry. exact N.
        - wstep. apply QA; [exact E|]. cbn [fst snd]. split; [repeat split|]. apply (judge (ch_value c)); [destruct C as [C|(_ & C)]; [left|right]; exact C|exact B|]. right. split; [reflexivity|exact F].
        - wstep. apply QA.
          + eapply ext_perm; [|exact E]. unfold ch_cells. cbn [snd hch_set hch_addr hch_root hch_node hch_cache cells_opt]. solve_perm.
          + cbn [fst snd]. split; [repeat split|]. apply (judge (ch_value c)); [destruct C as [C|(_ & C)]; [left|right]; exact C|exact B|]. left. apply lift_val in V. symmetry. exact V. }
      destruct (hch_cache c) as [v|]; cbn [oc option_map opt_plain] in *.
      + release v; [exact KC|]. apply D. exact E.
      + unfold h_buffer_destroy. wstep. apply D. exact E3.
  Qed.

  (* ---- nodes ---- *)
  Lemma node_input_pub n s x : node_input n s = Some x -> In x (node_strings P n) /\ In (p_sha P SHA512 x) (node_strings P n).
  Proof.
    intros E. assert (I : In x (flat_map (fun s => opt_list (node_input n s)) statuses)). { apply in_flat_map. exists s. split; [destruct s; cbn; tauto|]. rewrite E. left. reflexivity. }
    unfold node_strings, with_digests. rewrite !in_app_iff. split; [left; left; exact I|]. left. right. apply in_map. exact I.
  Qed.
  Lemma node_input_set n s : incl (opt_list (node_input n s)) (node_strings P n).
  Proof. intros z I. destruct (node_input n s) as [x|] eqn:D; [|destruct I]. destruct I as [<-|[]]. exact (proj1 (node_input_pub _ _ _ D)). Qed.
  Lemma node_cache_from n x : node_make_status_cache P n = Some x -> exists y, node_input n (nd_status n) = Some y /\ x = p_sha P SHA512 y.
  Proof.
    unfold node_make_status_cache, node_input. destruct (nd_keypair n) as [k|]; [|discriminate]. destruct (kp_signature k) as [g|]; [|discriminate]. destruct (ch_cache (nd_chain n)); [|discriminate].
    destruct (buffer_concat_multi _) as [y|]; [|discriminate]. cbn [sha2]. rewrite app_nil_r. intros V. apply Some_inj' in V. exists y. split; [reflexivity|symmetry; exact V].
  Qed.
  Lemma node_cache_rule (R : sha_ok P) n : op_rule buf_cells b_bytes [nd_cells n] (lift (node_make_status_cache P (nd_value n)))
    (opt_list (node_input (nd_value n) (hnd_status n))) [] buffer_kinds never_leaks_op (h_node_make_status_cache P n).
  Proof.
    begin. unfold h_node_make_status_cache. parts M0 nd_cells. inner (hnd_chain n) ch_cells. unfold node_make_status_cache, node_input in *.
    wstep. wstep. change (nd_keypair (nd_value n)) with (option_map kp_value (hnd_keypair n)) in *. destruct (hnd_keypair n) as [k|]; cbn [option_map] in *; [|wstep; gone; left; reflexivity].
    change (cells_opt kp_cells (Some k)) with (kp_cells k) in *. inner k kp_cells. do 4 wstep. change (kp_signature (kp_value k)) with (option_map sig_value (hkp_sig k)) in *.
    change (ch_cache (nd_chain (nd_value n))) with (option_map b_bytes (hch_cache (hnd_chain n))) in *.
    destruct (hkp_sig k) as [g|]; cbn [option_map] in *; [|wstep; gone; left; reflexivity].
    destruct (hch_cache (hnd_chain n)) as [v|]; cbn [option_map] in *; [|wstep; gone; left; reflexivity].
    change (cells_opt sig_cells (Some g)) with (sig_cells g) in *. inner g sig_cells. inner (hkp_key k) key_cells.
    do 4 wstep. rd. rd. wstep.
    change (ek_pub (kp_key (kp_value k))) with (b_bytes (hkey_pub (hkp_key k))) in *.
    change (es_sig (sig_value g)) with (b_bytes (hsig_data g)) in *. change (nd_status (nd_value n)) with (hnd_status n) in *.
    eapply concat_multi_wp; [exact E|exact K0|intros h1 E1 N|intros b h1 E1 V].
    - out. destruct N as [N|F]; [left; rewrite N; reflexivity|right; sfailed].
    - rewrite V in *. cbn [opt_list] in *. call (sha2_rule P R (Some b) None SHA512); cbn [option_map] in *.
      + intros Z. destruct (lift_ub _ Z).
      + rel b; [exact K|]. out. left. exact N.
      + rel b; [exact K|]. out. right. exact F.
      + rel b; [exact K|]. wstep. there. exact V0.
  Qed.
  Lemma node_has_cache_rule (R : sha_ok P) n : told_rule [nd_cells n] (or_no (node_has_valid_cache P (nd_value n))) (node_strings P (nd_value n)) buffer_kinds (h_node_has_valid_cache P n).
  Proof.
    begin_told. unfold h_node_has_valid_cache, node_has_valid_cache, or_no in *. parts M0 nd_cells. wstep. wstep.
    change (nd_cache (nd_value n)) with (option_map b_bytes (hnd_cache n)) in *. change (nd_chain (nd_value n)) with (ch_value (hnd_chain n)) in *.
    destruct (hnd_cache n) as [v|] eqn:C; cbn [option_map] in *; [|wstep; apply QA; [exact E|left; reflexivity]].
    change (cells_opt buf_cells (Some v)) with (buf_cells v) in *. pose proof (keeps_sub _ _ _ K (node_input_set (nd_value n) (hnd_status n))) as KI.
    wstep. eapply (told_call _ _ _ _ _ (has_cache_rule R (hnd_chain n))) with (W := W); [exact HU|exact E|arguments| |].
    { refine (keeps_sub _ _ _ K _). intros z I. unfold node_strings. rewrite !in_app_iff. right. right. exact I. }
    intros ok h1 E1 B. clear E. unfold or_no in B. destruct ok; cbn [negb].
    2: { wstep. apply QA; [exact E1|]. destruct B as [B|(_ & F)]; [left; rewrite <- B; reflexivity|right; split; [reflexivity|exact F]]. }
    assert (B1 : chain_has_valid_cache P (ch_value (hnd_chain n)) = true) by (destruct B as [B|(B & _)]; [symmetry; exact B|discriminate B]). rewrite B1 in *. cbn [andb] in *.
    call (node_cache_rule R n).
    - intros Z. destruct (lift_ub _ Z).
    - apply lift_null in N. unfold h_bytes_opt. do 2 wstep. rd. unfold h_buffer_destroy. do 3 wstep. apply QA; [assumption|left]. rewrite N. reflexivity.
    - unfold h_bytes_opt. do 2 wstep. rd. unfold h_buffer_destroy. do 3 wstep. apply QA; [assumption|right]. split; [reflexivity|exact F].
    - apply lift_val in V. unfold h_bytes_opt. wstep. rdh. wstep. rd. rel t.
      + refine (keeps_sub _ _ _ K _). intros z [<-|[]]. destruct (node_cache_from _ _ V) as (y & D & ->). exact (proj2 (node_input_pub _ _ _ D)).
      + repeat wstep. apply QA; [assumption|left]. rewrite V. reflexivity.
  Qed.
  Definition node_with (n : node) (c : chain) (s : status) (cache : option bytes) : node :=
    {| nd_dev_id := nd_dev_id n; nd_chain := c; nd_keypair := nd_keypair n; nd_status := s; nd_cache := cache |}.
  Lemma node_update_rule (R : sha_ok P) n c s : change_rule [] (nd_cells (hnd_set n c (hnd_status n) (hnd_cache n))) nd_cells
    (fun fails n' => exists cache, n' = hnd_set n c s cache /\
       (option_map b_bytes cache = node_make_status_cache P (node_with (nd_value n) (ch_value c) s None) \/ cache = None /\ some_failure fails))
    (opt_list (node_input (nd_value n) s) ++ opt_list (nd_cache (nd_value n))) [] buffer_kinds never_leaks_op (h_node_update P n c s).
  Proof.
    begin_change. unfold h_node_update.
    assert (E3 : ext secret W h0 (oc buf_cells (hnd_cache n) ++ nd_cells (hnd_set n c s None) ++ X) h).
    { eapply ext_perm; [|exact E]. unfold nd_cells. cbn [hnd_set hnd_addr hnd_dev_id hnd_chain hnd_keypair hnd_cache cells_opt]. change (oc buf_cells (hnd_cache n)) with (cells_opt buf_cells (hnd_cache n)). solve_perm. }
    clear E. wstep. assert (D : forall h3, ext secret W h0 (nd_cells (hnd_set n c s None) ++ X) h3 ->
      wp U fails (cache <-! h_node_make_status_cache P (hnd_set n c s None) ;; hret (hnd_set n c s cache))%h h3 Q).
    { intros h3 E4. pose proof (node_cache_rule R (hnd_set n c s None)) as RC.
      assert (KI : keeps_secret secret (opt_list (node_input (nd_value n) s))) by (refine (keeps_sub _ _ _ K _); apply incl_appl, incl_refl).
      call RC.
      - intros Z. destruct (lift_ub _ Z).
      - wstep. apply QA; [exact E|]. exists None. split; [reflexivity|]. left. apply lift_null in N. symmetry. exact N.
      - wstep. apply QA; [exact E|]. exists None. split; [reflexivity|]. right. split; [reflexivity|exact F].
      - wstep. apply QA.
        + eapply ext_perm; [|exact E]. unfold nd_cells. cbn [hnd_set hnd_addr hnd_dev_id hnd_chain hnd_keypair hnd_cache cells_opt]. solve_perm.
        + exists (Some t). split; [reflexivity|]. left. apply lift_val in V. symmetry. exact V. }
    change (nd_cache (nd_value n)) with (option_map b_bytes (hnd_cache n)) in K. destruct (hnd_cache n) as [v|]; cbn [oc option_map opt_list] in *.
    + release v; [refine (keeps_sub _ _ _ K _); apply incl_appr, incl_refl|]. apply D. exact E.
    + unfold h_buffer_destroy. wstep. apply D. exact E3.
  Qed.
  Lemma verify_owner_rule k o : answer_rule [oc kp_cells k; id_cells o] (keypair_verify_owner P (option_map kp_value k) (Some (id_value o))) [T_openssl] never_leaks_op (h_keypair_verify_owner P k o).
  Proof.
    intros secret U W fails h Q HU HW OK M K QA. pose proof (ext_start secret W h OK) as E. apply all_cons in M. destruct M as (M0 & M). apply all_cons in M. destruct M as (M1 & _).
    unfold h_keypair_verify_owner. destruct k as [k|]; cbn [oc option_map keypair_verify_owner] in *; [|wstep; apply QA; [exact E|left; reflexivity]].
    parts M0 kp_cells. parts M1 id_cells. inner (hkp_key k) key_cells. do 6 wstep.
    eapply (answer_call _ _ _ _ _ (ec_verify_rule P (hkp_sig k) (Some (hid_key o)) (Some (hkey_pub (hkp_key k))))) with (W := W); [exact HU|exact HW|exact E|arguments|exact K|exact QA].
  Qed.
  Lemma judged_same fails c b c' : chain_judged P fails c b c' -> ch_root c' = ch_root c /\ ch_node c' = ch_node c.
  Proof.
    intros [J|(_ & _ & A & B & _)]; [|split; assumption]. unfold chain_validate in J. destruct (chain_has_valid_cache P c); inversion J; split; reflexivity.
  Qed.
  Lemma judged_valid fails c c' : chain_judged P fails c true c' -> chain_passes P c /\ ch_status c' = S_VALID.
  Proof.
    intros [J|(_ & A & _ & _ & B & _)]; [|split; [left; exact (A eq_refl)|exact B]]. unfold chain_validate in J. unfold chain_passes. destruct (chain_has_valid_cache P c).
    - inversion J. destruct (ch_status c) eqn:D; try discriminate; split; [right; split; reflexivity|reflexivity].
    - inversion J as [[B C]]. fold (chain_signed P c) in *. split; [left; symmetry; exact B|]. first [reflexivity|rewrite <- B; reflexivity|rewrite C; reflexivity].
  Qed.
  Lemma node_judge_cached fails n : true = node_has_valid_cache P n -> node_judged P fails n (match nd_status n with S_VALID => true | _ => false end) n.
  Proof. intros C. left. unfold node_verify_signature_chain. rewrite <- C. reflexivity. Qed.
  (* what is known when the node's status has been set *)
  Lemma node_judge fails n b c' k cache : false = node_has_valid_cache P n \/ some_failure fails -> chain_judged P fails (nd_chain n) b c' ->
    (if b then k = keypair_verify_owner P (nd_keypair n) (Some (ch_node (nd_chain n))) \/ k = false /\ some_failure fails else k = false) ->
    let n' := node_with n c' (if k then S_VALID else S_INVALID) cache in
    cache = node_make_status_cache P n' \/ cache = None /\ some_failure fails -> node_judged P fails n k n'.
  Proof.
    intros C J B n' V. destruct (judged_same _ _ _ _ J) as (S1 & S2).
    assert (D : some_failure fails \/ (false = node_has_valid_cache P n /\ (b, c') = chain_validate P (nd_chain n) /\
      (if b then k = keypair_verify_owner P (nd_keypair n) (Some (ch_node (nd_chain n))) else k = false) /\ cache = node_make_status_cache P n')).
    { destruct C as [C|F]; [|left; exact F]. destruct V as [V|(_ & F)]; [|left; exact F]. destruct J as [J|(F & _)]; [|left; exact F]. destruct b; [destruct B as [B|(_ & F)]; [|left; exact F]|]; right; repeat split; assumption. }
    destruct D as [F|(C1 & J1 & B1 & V1)].
    - right. split; [exact F|]. split; [|repeat (split; [first [reflexivity|assumption]|]); cbn [n' node_with nd_cache]; fold n'; tauto].
      intros ->. destruct b; [|discriminate B]. split; [exact (proj1 (judged_valid _ _ _ J))|]. destruct B as [B|(B & _)]; [symmetry; exact B|discriminate B].
    - left. unfold node_verify_signature_chain. rewrite <- C1, <- J1. cbn [fst snd]. destruct b; cbn [negb].
      + rewrite S2, <- B1. cbn [node_update_status_cache node_set nd_status nd_chain]. rewrite (proj2 (judged_valid _ _ _ J)). f_equal; [destruct k; reflexivity|].
        unfold n', node_with, node_update_status_cache, node_set. cbn [nd_dev_id nd_chain nd_keypair nd_status]. f_equal. rewrite V1. reflexivity.
      + subst k. unfold n', node_with, node_update_status_cache, node_set. cbn [nd_dev_id nd_chain nd_keypair nd_status]. f_equal. f_equal. rewrite V1. reflexivity.
  Qed.
  Lemma judged_strings fails c b c' : chain_judged P fails c b c' -> forall z, In z (opt_list (ch_cache c')) -> In z (chain_strings P c).
  Proof.
    assert (G : forall c c' x, ch_root c' = ch_root c -> ch_node c' = ch_node c -> chain_make_status_cache P c' = Some x -> In x (chain_strings P c)).
    { intros d d' x A B V. rewrite cache_eq in V. unfold chain_input in V. rewrite A, B in V. change (match chain_input d (ch_status d') with Some x => Some (p_sha P SHA512 x) | None => None end = Some x) in V.
      destruct (chain_input d (ch_status d')) as [y|] eqn:D; [|discriminate]. apply Some_inj' in V. rewrite <- V. exact (proj2 (chain_input_pub _ _ _ D)). }
    intros J z I. destruct J as [J|(_ & _ & A & B & _ & C)].
    - unfold chain_validate in J. destruct (chain_has_valid_cache P c).
      + inversion J; subst. unfold chain_strings. apply in_or_app. right. exact I.
      + inversion J; subst. cbn [chain_update_status_cache ch_cache] in I. match type of I with In _ (opt_list ?o) => destruct o as [y|] eqn:D; [|destruct I] end. destruct I as [<-|[]].
        refine (G _ _ _ _ _ D); reflexivity.
    - destruct C as [C|C]; rewrite C in I; [destruct I|]. destruct (chain_make_status_cache P c') as [y|] eqn:D; [|destruct I]. destruct I as [<-|[]]. exact (G _ _ _ A B D).
  Qed.
  Lemma node_verify_rule (R : sha_ok P) n : change_rule [] (nd_cells n) node_left (node_after P n)
    (node_strings P (nd_value n)) [] (T_openssl :: buffer_kinds) never_leaks_op (h_node_verify_signature_chain P n).
  Proof.
    begin_change. unfold node_left, node_after in *. unfold h_node_verify_signature_chain. wstep.
    eapply (told_call _ _ _ _ _ (node_has_cache_rule R n)) with (W := W); [untested_tac|exact E|apply Forall_cons; [exact (made_in_memory _ _ _ _ _ _ E)|apply Forall_nil]|exact K|].
    intros cached h1 E1 C. clear E. unfold or_no in C. destruct cached.
    { wstep. apply QA; [exact E1|]. cbn [fst snd]. split; [repeat split|]. apply node_judge_cached. destruct C as [C|(C & _)]; [exact C|discriminate C]. }
    assert (C1 : false = node_has_valid_cache P (nd_value n) \/ some_failure fails) by (destruct C as [C|(_ & C)]; [left|right]; exact C). clear C.
    assert (E2 : ext secret W h0 (ch_cells (hnd_chain n) ++ (struct_cell (hnd_addr n) ++ buf_cells (hnd_dev_id n) ++ cells_opt kp_cells (hnd_keypair n) ++ cells_opt buf_cells (hnd_cache n)) ++ X) h1).
    { eapply ext_perm; [|exact E1]. unfold nd_cells. solve_perm. }
    clear E1. wstep. eapply (chain_validate_rule R (hnd_chain n)) with (W := W); [exact HU|intros []|exact E2|apply Forall_nil| |intros _; exact K0|].
    { refine (keeps_sub _ _ _ K _). intros z I. unfold node_strings. rewrite !in_app_iff. right. right. exact I. }
    intros (b & c') h2 E3 (IP & J). clear E2. unfold chain_left in E3. cbn [fst snd] in *.
    assert (KU : forall s, keeps_secret secret (opt_list (node_input (nd_value n) s) ++ opt_list (nd_cache (nd_value n)))).
    { intros s. refine (keeps_sub _ _ _ K _). intros z I. apply in_app_or in I. destruct I as [I|I]; [exact (node_input_set _ _ _ I)|]. unfold node_strings. rewrite !in_app_iff. right. left. exact I. }
    assert (D : forall k h3, ext secret W h0 (ch_cells c' ++ (struct_cell (hnd_addr n) ++ buf_cells (hnd_dev_id n) ++ cells_opt kp_cells (hnd_keypair n) ++ cells_opt buf_cells (hnd_cache n)) ++ X) h3 ->
      (if b then k = keypair_verify_owner P (nd_keypair (nd_value n)) (Some (ch_node (nd_chain (nd_value n)))) \/ k = false /\ some_failure fails else k = false) ->
      forall (Q' : hnd -> heap -> Prop), (forall n' h4, ext secret W h0 (nd_cells n' ++ X) h4 -> node_judged P fails (nd_value n) k (nd_value n') ->
         hnd_status n' = (if k then S_VALID else S_INVALID) -> hnd_chain n' = c' -> node_in_place n n' -> Q' n' h4) ->
      wp U fails (h_node_update P n c' (if k then S_VALID else S_INVALID)) h3 Q').
    { intros k h3 E4 B Q' G. eapply (node_update_rule R n c' (if k then S_VALID else S_INVALID)) with (W := W) (h0 := h0) (X := X); [untested_tac|intros []| |apply Forall_nil|apply KU|intros _; exact K0|].
      - eapply ext_perm; [|exact E4]. unfold nd_cells. cbn [hnd_set hnd_addr hnd_dev_id hnd_chain hnd_keypair hnd_cache]. solve_perm.
      - intros n' h4 E5 (cache & -> & V). apply G; [exact E5| |reflexivity|reflexivity|repeat (split; [reflexivity|]); exact IP].
        apply (node_judge fails (nd_value n) b (ch_value c') k (option_map b_bytes cache)); [exact C1|exact J|exact B|]. destruct V as [V|(-> & F)]; [left; exact V|right; split; [reflexivity|exact F]]. }
    destruct b; cbn [negb].
    - inside c' ch_cells. wstep. wstep. wstep.
      eapply (answer_call _ _ _ _ _ (verify_owner_rule (hnd_keypair n) (hch_node c'))) with (W := W) (h0 := h0); [untested_tac|intros []|exact E3| |exact K0|].
      { apply Forall_cons; [|apply Forall_cons; [assumption|apply Forall_nil]]. change (oc kp_cells (hnd_keypair n)) with (cells_opt kp_cells (hnd_keypair n)).
        norm E3. pull E3 (cells_opt kp_cells (hnd_keypair n)). exact (made_in_memory _ _ _ _ _ _ E3). }
      intros k h3 E4 B. wstep.
      assert (B' : k = keypair_verify_owner P (nd_keypair (nd_value n)) (Some (ch_node (nd_chain (nd_value n)))) \/ k = false /\ some_failure fails).
      { destruct (judged_same _ _ _ _ J) as (_ & S2). change (id_value (hch_node c')) with (ch_node (ch_value c')) in B. rewrite S2 in B. exact B. }
      eapply (D k h3); [exact E4|exact B'|]. intros n' h4 E5 JN S1 S2 IN. wstep. apply QA; [exact E5|]. cbn [fst snd]. split; [exact IN|].
      rewrite S1, S2. change (hch_status c') with (ch_status (ch_value c')). rewrite (proj2 (judged_valid _ _ _ J)). destruct k; exact JN.
    - wstep. eapply (D false h2); [exact E3|reflexivity|]. intros n' h4 E5 JN S1 S2 IN. wstep. apply QA; [exact E5|split; [exact IN|exact JN]].
  Qed.

  (* ---- contexts ---- *)
  Lemma ctx_create_rule (R : sha_ok P) i c k : change_rule [] (di_cells i ++ ch_cells c ++ sk_cells k) (taken cx_cells (di_cells i ++ ch_cells c ++ sk_cells k))
    (makes cx_value (lift (ctx_create P (Some (di_value i)) (Some (ch_value c)) (Some (sk_value k))))) [] [] (T_cipher_key :: buffer_kinds) some_failure
    (h_ctx_create P (Some i) (Some c) (Some k)).
  Proof.
    begin_change. unfold h_ctx_create, ctx_create in *. norm E. assert (HN : never_leaks_op fails -> W) by intros [].
    pose proof (gen_header_key_rule P R default_cipher c) as RG. call RG.
    - intros Z. destruct (lift_ub _ Z).
    - wstep. apply lift_null in N. apply QA; [eapply ext_perm; [|exact E0]; unfold taken; solve_perm|]. left. rewrite N. reflexivity.
    - wstep. apply QA; [eapply ext_perm; [|exact E0]; unfold taken; solve_perm|]. right. exact F.
    - apply lift_val in V. rewrite V in *. wstep. wstep.
      + repeat wstep. assert (FF : some_failure fails) by sfailed. apply QA; [|right; exact FF]. match goal with G : ext _ _ _ _ ?h |- ext _ _ _ _ ?h => pull G (ck_cells t); apply ext_leak in G; [|exact (HW FF)]; eapply ext_perm; [|exact G] end. unfold taken. solve_perm.
      + repeat wstep. apply QA; [|reflexivity]. match goal with G : ext _ _ _ _ ?h |- ext _ _ _ _ ?h => eapply ext_perm; [|exact G] end. unfold taken, cx_cells. cbn [hcx_addr hcx_dev hcx_chain hcx_storage hcx_header]. solve_perm.
  Qed.
  Lemma node_gen_draw r s n : fst (node_identity_gen P (Some r) None s) = Val n -> snd (node_identity_gen P (Some r) None s) = (3 + s)%nat.
  Proof.
    unfold node_identity_gen, mbind. destruct (id_type r); [|discriminate]. pose proof (rand_key_draw P P521 s) as D1. destruct (ec_rand_key P P521 s) as [[k| |] s1]; [|discriminate..]. cbn [snd] in D1. subst s1.
    pose proof (identity_sign_draw P (Some r) (Some (ek_pub k)) (S s)) as D2. destruct (identity_sign P (Some r) (Some (ek_pub k)) (S s)) as [[g| |] s2]; [|discriminate..]. cbn [fst snd] in D2. specialize (D2 _ eq_refl). subst s2.
    pose proof (random_draw P IDENTIFIER_LEN (S (S s))) as D3. destruct (crypto_random P IDENTIFIER_LEN (S (S s))) as [[i| |] s3]; [|discriminate..]. cbn [fst snd] in D3. specialize (D3 _ eq_refl). subst s3.
    intros _. reflexivity.
  Qed.
  Lemma gen_eq i k id s : made_root_keys k -> made_dev_info i -> fst (ctx_gen_with_root_keys P (Some i) (Some k) (Some id) s) =
    rbind (lift (buffer_copy (Some id))) (fun id' => rbind (lift (identity_create ID_ROOT (Some id') (Some (rk_signature k)) None)) (fun r =>
      rbind (fst (node_identity_gen P (Some r) None s)) (fun n => rbind (lift (chain_create (Some r) (Some n))) (fun c =>
        if negb (fst (chain_validate P c)) then Null
        else rbind (lift (root_keys_localize P (Some k) (Some i))) (fun st => rbind (lift (ctx_create P (Some i) (Some (snd (chain_validate P c))) (Some st))) (fun x =>
          rbind (fst (cipher_key_random P default_cipher (3 + s)%nat)) (fun rk => Val {| gr_ctx := x; gr_recovery_key := rk; gr_root_keys := k |}))))))).
  Proof.
    intros MK MI. unfold ctx_gen_with_root_keys. rewrite bind_eq. rewrite (CopyFacts.ec_key_made _ (proj1 MK)). cbn [mlift mres lift fst snd rbind].
    rewrite bind_eq. cbn [mlift mres fst snd]. destruct (lift (buffer_copy (Some id))) as [id'| |]; [|reflexivity..]. cbn [rbind].
    rewrite bind_eq. cbn [mlift mres fst snd]. destruct (lift (identity_create ID_ROOT (Some id') (Some (rk_signature k)) None)) as [r| |]; [|reflexivity..]. cbn [rbind].
    rewrite bind_eq. pose proof (node_gen_draw r s) as D. destruct (node_identity_gen P (Some r) None s) as [[n| |] s1]; [|reflexivity..]. cbn [fst snd rbind] in *. specialize (D _ eq_refl). subst s1.
    rewrite bind_eq. cbn [mlift mres fst snd]. destruct (lift (chain_create (Some r) (Some n))) as [c| |]; [|reflexivity..]. cbn [rbind].
    destruct (negb (fst (chain_validate P c))); [reflexivity|].
    rewrite bind_eq. cbn [mlift mres fst snd]. destruct (lift (root_keys_localize P (Some k) (Some i))) as [st| |]; [|reflexivity..]. cbn [rbind].
    rewrite bind_eq. rewrite (CopyFacts.dev_info_made _ MI). cbn [mlift mres lift fst snd rbind].
    rewrite bind_eq. cbn [mlift mres fst snd]. destruct (lift (ctx_create P (Some i) (Some (snd (chain_validate P c))) (Some st))) as [x| |]; [|reflexivity..]. cbn [rbind].
    rewrite bind_eq. destruct (cipher_key_random P default_cipher (3 + s)%nat) as [[rk| |] s2]; [|reflexivity..]. cbn [fst snd rbind]. rewrite (CopyFacts.root_keys_made _ MK). reflexivity.
  Qed.
  Local Open Scope h_scope.
  (* what follows when the chain is valid *)
  Definition gen_tail (i : hdi) (k : hrk) (s : nat) (c : hch) : H (option hgr) :=
    new_storage_keys <-? h_root_keys_localize P (Some k) (Some i) else h_chain_destroy (Some c) ;;
    info_copy <-? h_dev_info_copy (Some i) else (h_chain_destroy (Some c) ;;; h_storage_keys_destroy (Some new_storage_keys)) ;;
    ctx <-? h_ctx_create P (Some info_copy) (Some c) (Some new_storage_keys)
      else (h_chain_destroy (Some c) ;;; h_storage_keys_destroy (Some new_storage_keys) ;;; h_dev_info_destroy (Some info_copy)) ;;
    recovery_key <-? h_cipher_key_random P default_cipher (3 + s)%nat else h_ctx_destroy (Some ctx) ;;
    root_keys_copy <-! h_root_keys_copy (Some k) ;;
    final_result <-? h_gen_result_create (Some ctx) (Some recovery_key) root_keys_copy
      else (h_ctx_destroy (Some ctx) ;;; h_cipher_key_destroy (Some recovery_key) ;;; h_root_keys_destroy root_keys_copy) ;;
    hret (Some final_result).
  Local Close Scope h_scope.
  Definition tail_pure (i : dev_info) (k : root_keys) (s : nat) (c : chain) : res gen_result :=
    rbind (lift (root_keys_localize P (Some k) (Some i))) (fun st => rbind (lift (ctx_create P (Some i) (Some c) (Some st))) (fun x =>
          rbind (fst (cipher_key_random P default_cipher (3 + s)%nat)) (fun rk => Val {| gr_ctx := x; gr_recovery_key := rk; gr_root_keys := k |}))).
  Lemma tail_wp (R : sha_ok P) (R1 : rand_ok P) i k s c (MK : made_root_keys (rk_value k)) (MI : made_dev_info (di_value i)) secret (U W : Prop) fails h0 X h (Q : option hgr -> heap -> Prop) :
    (forall n ty, In ty (T_cipher_key :: T_ec_key :: buffer_kinds) -> fails n ty = true -> U) -> (tail_pure (di_value i) (rk_value k) s (ch_value c) = UB -> U) -> (some_failure fails -> W) ->
    ext secret W h0 (ch_cells c ++ X) h -> in_memory h0 (rk_cells k) -> in_memory h0 (di_cells i) -> keeps_secret secret (ch_plain (ch_value c)) -> keeps_secret secret (rk_copy_plain (rk_value k)) ->
    (forall h1, ext secret W h0 X h1 -> tail_pure (di_value i) (rk_value k) s (ch_value c) = Null \/ some_failure fails -> Q None h1) ->
    (forall g h1, ext secret W h0 (gr_cells g ++ X) h1 -> tail_pure (di_value i) (rk_value k) s (ch_value c) = Val (gr_value g) -> Q (Some g) h1) ->
    wp U fails (gen_tail i k s c) h Q.
  Proof.
    intros HU HB HF E MK1 MI1 KC KR QN QS. pose proof (keeps_none _ _ KC) as K0. assert (HN : never_leaks_op fails -> W) by intros []. unfold gen_tail, tail_pure in *.
    assert (MK2 : if_set made_root_keys (option_map rk_value (Some k))) by (intros z Z; apply Some_inj' in Z; subst z; exact MK).
    call (root_keys_localize_rule P R (Some k) (Some i) MK2); cbn [option_map] in *.
    - intros V. destruct (lift_ub _ V).
    - rid chain_destroy_rule c; [exact KC|]. out. left. rewrite N. reflexivity.
    - rid chain_destroy_rule c; [exact KC|]. out. right. exact F.
    - rewrite V in *. cbn [rbind] in *. wstep. call (copy_op _ _ _ _ _ _ _ i dev_info_copy_rule MI).
      + discriminate.
      + discriminate N.
      + rid chain_destroy_rule c; [exact KC|]. rid storage_keys_destroy_rule t; [exact K0|]. out. right. exact F.
      + apply Val_inj in V0. wstep.
        match goal with E : ext _ _ _ _ ?h |- wp _ _ _ ?h _ => 
        eapply (ctx_create_rule R t0 c t) with (W := W) (h0 := h0) (X := X); [untested_tac|exact HF|eapply ext_perm; [|exact E]; solve_perm|apply Forall_nil|exact K0|intros _; exact K0|]; clear E end.
        rewrite <- V0. intros [x|] h3 E3 B; unfold taken, makes in *.
        * rewrite B in *. cbn [rbind] in *. apply lift_val in B.
          assert (KX : keeps_secret secret (cx_plain (cx_value x))).
          { unfold cx_plain. unfold ctx_create in B. destruct (gen_header_key P default_cipher (ch_value c)) as [hk|]; [|discriminate B]. apply Some_inj' in B. rewrite <- B. exact KC. }
          wstep. call (cipher_key_random_rule P R1 default_cipher (3 + s)).
          -- intros V1. apply HB. rewrite V1. reflexivity.
          -- rid ctx_destroy_rule x; [exact KX|]. out. left. rewrite N. reflexivity.
          -- rid ctx_destroy_rule x; [exact KX|]. out. right. exact F.
          -- rewrite V1 in *. cbn [rbind] in *. wstep. call (copy_op _ _ _ _ _ _ _ k root_keys_copy_rule MK).
             ++ discriminate.
             ++ discriminate N.
             ++ unfold h_gen_result_create. wstep. wstep. rid ctx_destroy_rule x; [exact KX|]. rid cipher_key_destroy_rule t1; [exact K0|]. unfold h_root_keys_destroy. out. right. exact F.
             ++ apply Val_inj in V2. unfold h_gen_result_create. wstep. wstep. wstep.
                ** rid ctx_destroy_rule x; [exact KX|]. rid cipher_key_destroy_rule t1; [exact K0|]. rid root_keys_destroy_rule t2; [exact K0|]. out. right. sfailed.
                ** repeat wstep. there. unfold gr_value. cbn [hgr_ctx hgr_recovery hgr_root]. rewrite V2. reflexivity.
        * norm E3. wstep. rid chain_destroy_rule c; [exact KC|]. rid storage_keys_destroy_rule t; [exact K0|]. rid dev_info_destroy_rule t0; [exact K0|]. out. destruct B as [B|F]; [left; rewrite B; reflexivity|right; exact F].
  Qed.
  Definition gen_kinds : list ctype := T_openssl :: T_ec_key :: T_ecdsa_result :: T_cipher_key :: buffer_kinds.
  Lemma identity_make_wp ty i k g secret (U W : Prop) fails h0 X h (Q : option hid -> heap -> Prop) :
    ext secret W h0 (buf_cells i ++ key_cells k ++ cells_opt sig_cells g ++ X) h ->
    (forall h1, ext secret W h0 (buf_cells i ++ key_cells k ++ cells_opt sig_cells g ++ X) h1 ->
       identity_create ty (Some (b_bytes i)) (Some (key_value k)) (option_map sig_value g) = None \/ some_failure fails -> Q None h1) ->
    (forall x h1, ext secret W h0 (id_cells x ++ X) h1 -> identity_create ty (Some (b_bytes i)) (Some (key_value k)) (option_map sig_value g) = Some (id_value x) -> Q (Some x) h1) ->
    wp U fails (h_identity_create ty (Some i) (Some k) g) h Q.
  Proof.
    intros E QN QS. unfold h_identity_create. cbn [identity_create] in *. inside i buf_cells. wstep. wstep. destruct (MAX_IDENTIFIER_LEN <=? blen (b_bytes i)).
    - wstep. apply QN; [exact E|left; reflexivity].
    - wstep. wstep.
      + repeat wstep. apply QN; [assumption|right; sfailed].
      + repeat wstep. apply QS; [|reflexivity]. match goal with G : ext _ _ _ _ ?h |- ext _ _ _ _ ?h => eapply ext_perm; [|exact G] end. unfold id_cells. cbn [hid_addr hid_identifier hid_key hid_sig]. solve_perm.
  Qed.
  Lemma fresh_judged fails c b c' : ch_cache c = None -> chain_judged P fails c b c' ->
    (b = true -> fst (chain_validate P c) = true /\ (c' = snd (chain_validate P c) \/ some_failure fails /\
       c' = {| ch_root := ch_root c; ch_node := ch_node c; ch_status := ch_status (snd (chain_validate P c)); ch_cache := None |})) /\
    (b = false -> fst (chain_validate P c) = false \/ some_failure fails).
  Proof.
    intros N J. assert (C : chain_validate P c = (chain_signed P c, chain_update_status_cache P (chain_set_status c (if chain_signed P c then S_VALID else S_INVALID)))).
    { unfold chain_validate, chain_has_valid_cache. rewrite N. reflexivity. }
    destruct J as [J|(F & A & R1 & R2 & S & V)].
    - split; intros ->; rewrite <- J; cbn [fst snd]; [split; [reflexivity|left; reflexivity]|left; reflexivity].
    - split; intros ->; [|right; exact F]. rewrite C, (A eq_refl). cbn [fst snd]. split; [reflexivity|]. unfold chain_update_status_cache, chain_set_status. cbn [ch_root ch_node ch_status ch_cache].
      destruct c' as [r n st v]. cbn [ch_root ch_node ch_status ch_cache] in *. subst r n st. destruct V as [->| ->]; [right; split; [exact F|reflexivity]|left].
      f_equal.
  Qed.
  Lemma ctx_create_cache i c st x v : ctx_create P (Some i) (Some c) (Some st) = Some x ->
    ctx_create P (Some i) (Some {| ch_root := ch_root c; ch_node := ch_node c; ch_status := ch_status c; ch_cache := v |}) (Some st) =
    Some {| cx_dev := cx_dev x; cx_chain := {| ch_root := ch_root c; ch_node := ch_node c; ch_status := ch_status c; ch_cache := v |}; cx_storage := cx_storage x; cx_header_key := cx_header_key x; cx_version := cx_version x |}
    /\ cx_chain x = c.
  Proof.
    unfold ctx_create. change (gen_header_key P default_cipher {| ch_root := ch_root c; ch_node := ch_node c; ch_status := ch_status c; ch_cache := v |}) with (gen_header_key P default_cipher c).
    destruct (gen_header_key P default_cipher c) as [hk|]; [|discriminate]. intros G. apply Some_inj' in G. subst x. split; reflexivity.
  Qed.
  Lemma tail_uncached i k s c g : tail_pure i k s {| ch_root := ch_root c; ch_node := ch_node c; ch_status := ch_status c; ch_cache := None |} = Val g -> uncached_of (tail_pure i k s c) g.
  Proof.
    unfold tail_pure. destruct (lift (root_keys_localize P (Some k) (Some i))) as [st| |]; [|discriminate..]. cbn [rbind]. unfold ctx_create.
    change (gen_header_key P default_cipher {| ch_root := ch_root c; ch_node := ch_node c; ch_status := ch_status c; ch_cache := None |}) with (gen_header_key P default_cipher c).
    destruct (gen_header_key P default_cipher c) as [hk|]; [|discriminate]. cbn [lift rbind]. destruct (fst (cipher_key_random P default_cipher (3 + s)%nat)) as [rk| |]; [|discriminate..]. cbn [rbind].
    intros G. apply Val_inj in G. subst g. eexists. split; [reflexivity|]. reflexivity.
  Qed.
  Lemma tail_none i k s c : tail_pure i k s {| ch_root := ch_root c; ch_node := ch_node c; ch_status := ch_status c; ch_cache := None |} = UB -> tail_pure i k s c = UB.
  Proof.
    unfold tail_pure. destruct (lift (root_keys_localize P (Some k) (Some i))) as [st| |]; [|discriminate|reflexivity]. cbn [rbind]. unfold ctx_create.
    change (gen_header_key P default_cipher {| ch_root := ch_root c; ch_node := ch_node c; ch_status := ch_status c; ch_cache := None |}) with (gen_header_key P default_cipher c).
    destruct (gen_header_key P default_cipher c) as [hk|]; [|discriminate]. cbn [lift rbind]. destruct (fst (cipher_key_random P default_cipher (3 + s)%nat)) as [rk| |]; [discriminate..|reflexivity].
  Qed.
  Lemma gen_with_root_keys_rule (R : sign_ok P) (R1 : rand_ok P) (R2 : sha_ok P) i k id s (MK : made_root_keys (rk_value k)) (MI : made_dev_info (di_value i)) :
    or_rule gr_cells gr_value [di_cells i; rk_cells k; buf_cells id] (fst (ctx_gen_with_root_keys P (Some (di_value i)) (Some (rk_value k)) (Some (b_bytes id)) s))
      (uncached_of (fst (ctx_gen_with_root_keys P (Some (di_value i)) (Some (rk_value k)) (Some (b_bytes id)) s)))
      (gen_strings P (rk_value k) (b_bytes id) s) [] gen_kinds (gen_leak P (rk_value k) (b_bytes id) s) (h_ctx_gen_with_root_keys P (Some i) (Some k) (Some id) s).
  Proof.
    begin. unfold h_ctx_gen_with_root_keys. rewrite (gen_eq _ _ _ _ MK MI) in *. parts M1 rk_cells. unfold gen_kinds in *. unfold gen_strings in K.
    assert (HF : some_failure fails -> W) by (intros F; apply HW; left; exact F). assert (HN : never_leaks_op fails -> W) by intros [].
    assert (KI : keeps_secret secret [b_bytes id]) by part_of K. assert (KP : keeps_secret secret [ek_pub (rk_signature (rk_value k))]) by part_of K.
    wstep. wstep. call (copy_op _ _ _ _ _ _ _ (hrk_sig k) ec_key_copy_rule (proj1 MK)).
    - discriminate.
    - discriminate N.
    - out. right. exact F.
    - apply Val_inj in V. wstep. copy id.
      + rid ec_key_destroy_rule t; [exact K0|]. out. left. cbn [buffer_copy]. rewrite N. reflexivity.
      + rid ec_key_destroy_rule t; [exact K0|]. out. right. sfailed.
      + rename b into ic. cbn [buffer_copy] in *. rewrite V0 in *. cbn [lift rbind] in *. wstep.
        assert (VK : key_value t = rk_signature (rk_value k)) by (symmetry; exact V).
        match goal with E : ext _ _ ?b _ ?h |- wp _ _ _ ?h _ => eapply (identity_make_wp ID_ROOT ic t None) with (W := W) (h0 := b) (X := []);
          [cbn [cells_opt]; eapply ext_perm; [|exact E]; solve_perm|intros h3 E3 N; clear E; cbn [cells_opt] in E3; norm E3|intros r h3 E3 VR; clear E] end.
        * rel ic; [rewrite B; exact KI|]. rid ec_key_destroy_rule t; [exact K0|]. out. destruct N as [N|F]; [left|right; exact F]. cbn [option_map] in N. rewrite B, VK in N. rewrite N. reflexivity.
        * cbn [option_map] in VR. rewrite B, VK in VR. rewrite VR in *. cbn [lift rbind] in *.
          assert (VR1 : id_value r = new_root (rk_value k) (b_bytes id)).
          { cbn [identity_create] in VR. destruct (MAX_IDENTIFIER_LEN <=? blen (b_bytes id)); [discriminate VR|]. apply Some_inj' in VR. symmetry. exact VR. }
          rewrite <- VR1 in K. wstep.
          assert (HS : sign_leak P (Some (hid_key r)) fails -> W).
          { intros [F|(k' & q & G & G1 & G2)]; [exact (HF F)|]. apply Some_inj' in G. subst k'. apply HW. right. left. exists (b_bytes q). split; [|exact G2].
            change (rk_signature (rk_value k)) with (id_key (new_root (rk_value k) (b_bytes id))). rewrite <- VR1. change (option_map b_bytes (hkey_pri (hid_key r)) = Some (b_bytes q)). rewrite G1. reflexivity. }
          assert (KN : keeps_secret secret (node_gen_public P (option_map id_value (Some r)) (option_map b_bytes None) s)) by (refine (keeps_sub _ _ _ K _); intros z I; do 2 right; apply in_or_app; left; exact I).
          assert (KR : keeps_secret secret (id_plain (id_value r))) by (rewrite VR1; exact KI).
          call (node_identity_gen_rule P R R1 (Some r) None s); cbn [option_map] in *.
          -- intros V1. apply HB. rewrite V1. reflexivity.
          -- rid identity_destroy_rule r; [exact KR|]. out. left. rewrite N. reflexivity.
          -- rid identity_destroy_rule r; [exact KR|]. out. right. exact F.
          -- rewrite V1 in *. cbn [rbind] in *. unfold new_chain in K. rewrite <- VR1, V1 in K. cbn [plain_of] in K.
             set (c0 := {| ch_root := id_value r; ch_node := id_value t0; ch_status := S_UNKNOWN; ch_cache := None |}) in *.
             assert (KT : keeps_secret secret (id_plain (id_value t0))) by (refine (keeps_sub _ _ _ K _); intros z I; unfold ch_plain; rewrite ?in_app_iff; cbn [In]; rewrite ?in_app_iff; cbn [c0 ch_node]; tauto).
             assert (KS : keeps_secret secret (chain_strings P c0)) by (refine (keeps_sub _ _ _ K _); intros z I; rewrite ?in_app_iff; cbn [In]; rewrite ?in_app_iff; tauto).
             assert (KG : forall f b' c', chain_judged P f c0 b' c' -> keeps_secret secret (ch_plain c')).
             { intros f b' c' J. destruct (judged_same _ _ _ _ J) as (S1 & S2). unfold ch_plain. rewrite S1, S2. split; [exact (proj1 K0)|]. intros z I. rewrite !in_app_iff in I.
               destruct I as [I|[I|I]]; [exact (proj2 KR z I)|exact (proj2 KT z I)|]. exact (proj2 KS z (judged_strings _ _ _ _ J z I)). }
             wstep. unfold h_chain_create. cbn [chain_create lift rbind] in *. fold c0 in HB, QN, QS. wstep. wstep.
             ++ rid identity_destroy_rule t0; [exact KT|]. rid identity_destroy_rule r; [exact KR|]. out. right. sfailed.
             ++ do 2 wstep. set (c1 := {| hch_addr := _; hch_root := r; hch_node := t0; hch_status := S_UNKNOWN; hch_cache := None |}).
                match goal with E : ext _ _ ?b _ ?h |- wp _ _ _ ?h _ => eapply (chain_validate_rule R2 c1) with (W := W) (h0 := b) (X := []);
                  [untested_tac|intros []|eapply ext_perm; [|exact E]; unfold ch_cells; cbn [c1 hch_addr hch_root hch_node hch_cache cells_opt]; solve_perm|apply Forall_nil|exact KS|intros _; exact K0|]; clear E end.
                intros (ok & c') h5 E5 ((IP1 & IP2 & IP3) & J). unfold chain_left in E5. cbn [fst snd] in *. change (ch_value c1) with c0 in J.
                destruct (fresh_judged fails c0 ok (ch_value c') eq_refl J) as (JT & JF). destruct ok; cbn [negb].
                ** destruct (JT eq_refl) as (JV & JC). rewrite JV in *. cbn [negb] in *.
                   change (wp U fails (gen_tail i k s c') h5 Q).
                   match type of E5 with ext _ _ ?b _ _ => 
                   eapply (tail_wp R2 R1 i k s c' MK MI) with (W := W) (h0 := b) (X := []); [untested_tac| |exact HF|exact E5|exact M1|exact M0|exact (KG _ _ _ J)|exact KP| |] end.
                   --- intros V2. apply HB. fold (tail_pure (di_value i) (rk_value k) s (snd (chain_validate P c0))). destruct JC as [JC|(_ & JC)]; rewrite JC in V2; [exact V2|]. exact (tail_none _ _ _ (snd (chain_validate P c0)) V2).
                   --- intros h6 E6 N. rewrite ?app_nil_r in E6. apply QN; [exact E6|]. fold (tail_pure (di_value i) (rk_value k) s (snd (chain_validate P c0))). destruct JC as [JC|(F & _)]; [rewrite JC in N; exact N|right; exact F].
                   --- intros g h6 E6 V2. rewrite ?app_nil_r in E6. apply QS; [exact E6|]. fold (tail_pure (di_value i) (rk_value k) s (snd (chain_validate P c0))) in *.
                       destruct JC as [JC|(F & JC)]; rewrite JC in V2; [left; exact V2|right; split; [exact F|]]. exact (tail_uncached _ _ _ (snd (chain_validate P c0)) _ V2).
                ** unfold ch_cells in E5. norm E5. rewrite IP2, IP3 in E5. cbn [c1 hch_root hch_node] in E5.
                   rid identity_destroy_rule t0; [exact KT|]. rid identity_destroy_rule r; [exact KR|]. repeat wstep.
                   assert (LW : W). { destruct (JF eq_refl) as [G|F]; [|exact (HF F)]. apply HW. right. right. exists c0. unfold new_chain. rewrite <- VR1, V1. split; [reflexivity|].
                     unfold chain_validate, chain_has_valid_cache in G. cbn [c0 ch_cache fst] in G. exact G. }
                   apply QN; [|destruct (JF eq_refl) as [G|F]; [left; rewrite G; reflexivity|right; exact F]].
                   match goal with G : ext _ _ _ ?L ?h |- ext _ _ _ [] ?h => eapply (ext_leak _ _ _ L); [exact LW|]; rewrite app_nil_r; exact G end.
  Qed.

  (* --- new root keys --- *)
  Lemma new_keys_draw s k : fst (root_keys_generate P s) = Val k -> snd (root_keys_generate P s) = (3 + s)%nat.
  Proof.
    unfold root_keys_generate, mbind. pose proof (cipher_key_draw P default_cipher s) as D. destruct (cipher_key_random P default_cipher s) as [[a| |] s1]; [|discriminate..].
    specialize (D _ eq_refl). cbn [fst snd] in *. subst s1. pose proof (cipher_key_draw P default_cipher (S s)) as D. destruct (cipher_key_random P default_cipher (S s)) as [[b| |] s1]; [|discriminate..].
    specialize (D _ eq_refl). cbn [fst snd] in *. subst s1. unfold mtry. pose proof (rand_key_draw P P521 (S (S s))) as D. destruct (ec_rand_key P P521 (S (S s))) as [[q| |] s1]; cbn [fst snd] in *; subst s1; [reflexivity|discriminate..].
  Qed.
  Lemma engine_made k : ec_ok P -> gen_ok P -> engine_key P k -> made_ec_key k.
  Proof.
    intros EO GO EK. destruct (engine_key_form P k EO GO EK) as (pub & E1 & E2 & E3 & E4 & E5). split.
    - unfold real. rewrite E1, BytesFacts.blen_cons. destruct EO as (_ & _ & EO). destruct (EO _ _ E3) as [_ L]. unfold within_limit, library_limit. lia.
    - intros q Q. destruct (engine_key_private P k q EO GO EK Q) as ((L1 & L2) & _). unfold real, within_limit, library_limit. lia.
  Qed.
  Lemma new_keys_made (EO : ec_ok P) (GO : gen_ok P) (RO : rand_ok P) s k : fst (root_keys_generate P s) = Val k -> made_root_keys k /\ engine_key P (rk_signature k).
  Proof.
    intros V. destruct (root_keys_generate P s) as [r s1] eqn:G. cbn [fst] in V. subst r. destruct (root_keys_generate_good P s k s1 RO G) as ((EK & _ & GN & GR) & _). split; [|exact EK]. split; [exact (engine_made _ EO GO EK)|].
    unfold made_cipher_key, CodecSpec.good_key, blen in *. split; lia.
  Qed.
  Lemma engine_leak (EO : ec_ok P) (GO : gen_ok P) (SO : sign_ok P) (RO : rand_ok P) k id s fails : engine_key P (rk_signature k) -> gen_leak P k id s fails -> some_failure fails.
  Proof.
    intros EK [F|[(q & Q1 & Q2)|(c & C1 & C2)]]; [exact F| |]; exfalso.
    - destruct (engine_key_form P _ EO GO EK) as (pub & _ & _ & _ & _ & E5). rewrite (E5 _ Q1) in Q2. discriminate Q2.
    - unfold new_chain in C1. destruct (node_identity_gen P (Some (new_root k id)) None s) as [[n| |] s1] eqn:G; cbn [fst] in C1; [|discriminate..]. apply Val_inj in C1.
      assert (V : fst (chain_validate P c) = true) by (apply (generated_chain_valid P (new_root k id) None s n s1 c EO GO SO RO EK G); cbn [chain_create]; rewrite <- C1; reflexivity).
      unfold chain_validate, chain_has_valid_cache in V. rewrite <- C1 in V, C2. cbn [ch_cache fst] in V. unfold chain_signed in C2. cbn [ch_root ch_node] in *. rewrite V in C2. discriminate C2.
  Qed.
  Lemma gen_new_rule (EO : ec_ok P) (GO : gen_ok P) (R : sign_ok P) (R1 : rand_ok P) (R2 : sha_ok P) i id s (MI : made_dev_info (di_value i)) :
    or_rule gr_cells gr_value [di_cells i; buf_cells id] (fst (ctx_gen_new P (Some (di_value i)) (Some (b_bytes id)) s))
      (uncached_of (fst (ctx_gen_new P (Some (di_value i)) (Some (b_bytes id)) s))) (of_new_keys P s [] (fun k => gen_strings P k (b_bytes id) (3 + s))) [] gen_kinds some_failure
      (h_ctx_gen_new P (Some i) (Some id) s).
  Proof.
    begin. unfold h_ctx_gen_new. unfold ctx_gen_new in *. rewrite bind_eq in *. unfold of_new_keys in K. pose proof (new_keys_draw s) as D. unfold gen_kinds in *.
    assert (HN : never_leaks_op fails -> W) by intros [].
    wstep. call (root_keys_generate_rule P R1 s).
    - intros V. apply HB. rewrite V. reflexivity.
    - out. left. rewrite N. reflexivity.
    - out. right. exact F.
    - rewrite V in *. rewrite (D _ eq_refl) in *. cbn [rbind] in *. destruct (new_keys_made EO GO R1 s _ V) as (MT & ET).
      assert (HG : gen_leak P (rk_value t) (b_bytes id) (3 + s) fails -> W) by (intros F; apply HW; exact (engine_leak EO GO R R1 _ _ _ _ ET F)).
      wstep. callo (gen_with_root_keys_rule R R1 R2 i t id (3 + s) MT MI).
      + exact HB.
      + rid root_keys_destroy_rule t; [exact K0|]. out. left. exact N.
      + rid root_keys_destroy_rule t; [exact K0|]. out. right. exact F.
      + rid root_keys_destroy_rule t; [exact K0|]. wstep. there. exact V0.
  Qed.
  Lemma keys_swap_wp (R : sign_ok P) (R1 : rand_ok P) (R2 : sha_ok P) i id keys s (MT : made_root_keys (rk_value keys)) (MI : made_dev_info (di_value i)) secret (U W : Prop) fails h0 h (Q : option hgr -> heap -> Prop) :
    (forall n ty, In ty gen_kinds -> fails n ty = true -> U) -> (fst (ctx_gen_with_root_keys P (Some (di_value i)) (Some (rk_value keys)) (Some (b_bytes id)) s) = UB -> U) ->
    (gen_leak P (rk_value keys) (b_bytes id) s fails -> W) -> ext secret W h0 (rk_cells keys) h -> in_memory h0 (di_cells i) -> in_memory h0 (buf_cells id) ->
    keeps_secret secret (gen_strings P (rk_value keys) (b_bytes id) s) ->
    (forall h1, ext secret W h0 [] h1 -> fst (ctx_gen_with_root_keys P (Some (di_value i)) (Some (rk_value keys)) (Some (b_bytes id)) s) = Null \/ some_failure fails -> Q None h1) ->
    (forall t h1, ext secret W h0 (gr_cells t) h1 -> (let pure := fst (ctx_gen_with_root_keys P (Some (di_value i)) (Some (rk_value keys)) (Some (b_bytes id)) s) in
       pure = Val (gr_value t) \/ some_failure fails /\ uncached_of pure (gr_value t)) -> Q (Some t) h1) ->
    wp U fails (hbind (h_ctx_gen_with_root_keys P (Some i) (Some keys) (Some id) s) (fun g => hbind (h_root_keys_destroy (Some keys)) (fun _ => hret g))) h Q.
  Proof.
    intros HU HB HW E M0 M1 K QN QS. assert (HN : never_leaks_op fails -> W) by intros []. assert (K0 : keeps_secret secret []) by (refine (keeps_sub _ _ _ K _); intros z []). unfold gen_kinds in *.
    rewrite <- (app_nil_r (rk_cells keys)) in E. wstep. callo (gen_with_root_keys_rule R R1 R2 i keys id s MT MI).
    - exact HB.
    - rid root_keys_destroy_rule keys; [exact K0|]. out. left. exact N.
    - rid root_keys_destroy_rule keys; [exact K0|]. out. right. exact F.
    - rid root_keys_destroy_rule keys; [exact K0|]. wstep. there. exact V.
  Qed.
  Lemma gen_new_with_sig_key_rule (EO : ec_ok P) (GO : gen_ok P) (R : sign_ok P) (R1 : rand_ok P) (R2 : sha_ok P) i sk id s (MI : made_dev_info (di_value i)) (MS : made_ec_key (key_value sk)) :
    or_rule gr_cells gr_value [di_cells i; key_cells sk; buf_cells id] (fst (ctx_gen_new_with_sig_key P (Some (di_value i)) (Some (key_value sk)) (Some (b_bytes id)) s))
      (uncached_of (fst (ctx_gen_new_with_sig_key P (Some (di_value i)) (Some (key_value sk)) (Some (b_bytes id)) s)))
      (of_new_keys P s [] (fun k => gen_strings P (with_sig k (Some (key_value sk))) (b_bytes id) (3 + s))) [] gen_kinds
      (fun fails => of_new_keys P s (some_failure fails) (fun k => gen_leak P (with_sig k (Some (key_value sk))) (b_bytes id) (3 + s) fails))
      (h_ctx_gen_new_with_sig_key P (Some i) (Some sk) (Some id) s).
  Proof.
    begin. unfold h_ctx_gen_new_with_sig_key. unfold ctx_gen_new_with_sig_key in *. rewrite bind_eq in *. unfold of_new_keys in K, HW. pose proof (new_keys_draw s) as D. unfold gen_kinds in *.
    assert (HN : never_leaks_op fails -> W) by intros [].
    wstep. call (root_keys_generate_rule P R1 s).
    - intros V. apply HB. rewrite V. reflexivity.
    - out. left. rewrite N. reflexivity.
    - out. right. exact F.
    - rewrite V in *. rewrite (D _ eq_refl) in *. cbn [rbind] in *. destruct (new_keys_made EO GO R1 s _ V) as ((_ & MT) & _). rewrite bind_eq in *.
      pose proof (CopyFacts.ec_key_made _ MS) as CK. rewrite CK in *. unfold mlift, mres in *. cbn [lift fst snd rbind] in *.
      assert (KP : keeps_secret secret [ek_pub (key_value sk)]) by (unfold gen_strings in K; refine (keeps_sub _ _ _ K _); intros z [<-|[]]; right; left; reflexivity).
      match goal with E : ext _ _ _ _ ?h |- wp _ _ _ ?h _ => unfold rk_cells in E; norm E end.
      wstep. wstep. wstep. drop ec_key_destroy_rule (hrk_sig t); [exact K0|]. wstep.
      call (copy_op _ _ _ _ _ _ _ sk ec_key_copy_rule MS).
      + discriminate.
      + discriminate N.
      + rid cipher_key_destroy_rule (hrk_node t); [exact K0|]. rid cipher_key_destroy_rule (hrk_remote t); [exact K0|]. out. right. exact F.
      + apply Val_inj in V0. set (keys := {| hrk_addr := hrk_addr t; hrk_sig := t0; hrk_node := hrk_node t; hrk_remote := hrk_remote t |}).
        assert (VK : rk_value keys = with_sig (rk_value t) (Some (key_value sk))) by (unfold with_sig, rk_value; cbn [keys hrk_sig hrk_node hrk_remote rk_node rk_remote]; rewrite <- V0; reflexivity).
        change ({| rk_signature := key_value sk; rk_node := rk_node (rk_value t); rk_remote := rk_remote (rk_value t) |}) with (with_sig (rk_value t) (Some (key_value sk))) in *.
        assert (MK : made_root_keys (rk_value keys)) by (rewrite VK; split; [exact MS|exact MT]). rewrite <- VK in *.
        lazymatch goal with E : ext _ _ ?b _ ?h |- wp _ _ _ ?h _ => apply (keys_swap_wp R R1 R2 i id keys (3 + s) MK MI secret U W fails b); [exact HU|exact HB|exact HW| |assumption|assumption|exact K|exact QN|exact QS];
          eapply ext_perm; [|exact E]; unfold rk_cells; cbn [keys hrk_addr hrk_sig hrk_node hrk_remote]; solve_perm end.
  Qed.
  Lemma gen_chain i k id s g (MK : made_root_keys k) (MI : made_dev_info i) : fst (ctx_gen_with_root_keys P (Some i) (Some k) (Some id) s) = Val g ->
    exists c, new_chain P k id s = Val c /\ cx_chain (gr_ctx g) = snd (chain_validate P c).
  Proof.
    rewrite (gen_eq _ _ _ _ MK MI). cbn [buffer_copy]. destruct (buffer_create id) as [id'|] eqn:B; [|discriminate]. apply buffer_create_same in B. subst id'. cbn [lift rbind].
    unfold new_chain, new_root. destruct (identity_create ID_ROOT (Some id) (Some (rk_signature k)) None) as [r|] eqn:C; [|discriminate]. cbn [lift rbind].
    cbn [identity_create] in C. destruct (MAX_IDENTIFIER_LEN <=? blen id); [discriminate C|]. apply Some_inj' in C. rewrite C. destruct (fst (node_identity_gen P (Some r) None s)) as [n| |]; [|discriminate..]. cbn [rbind chain_create lift].
    destruct (negb _); [discriminate|]. destruct (root_keys_localize P (Some k) (Some i)) as [st|]; [|discriminate]. cbn [lift rbind].
    match goal with |- context [ctx_create P _ (Some ?c') _] => set (c1 := c') end. destruct (ctx_create P (Some i) (Some c1) (Some st)) as [x|] eqn:X; [|discriminate]. cbn [lift rbind].
    destruct (fst (cipher_key_random P default_cipher (3 + s)%nat)) as [rk| |]; [|discriminate..]. cbn [rbind]. intros G. apply Val_inj in G. subst g. eexists. split; [reflexivity|]. cbn [gr_ctx].
    exact (proj2 (ctx_create_cache _ _ _ _ None X)).
  Qed.
  Lemma gen_plain i k id s g secret (MK : made_root_keys k) (MI : made_dev_info i) : keeps_secret secret (gen_strings P k id s) ->
    fst (ctx_gen_with_root_keys P (Some i) (Some k) (Some id) s) = Val g -> keeps_secret secret (cx_plain (gr_ctx g)).
  Proof.
    intros K V. destruct (gen_chain _ _ _ _ _ MK MI V) as (c & C1 & C2). unfold gen_strings in K. rewrite C1 in K. cbn [plain_of] in K.
    assert (J : chain_judged P never c (fst (chain_validate P c)) (snd (chain_validate P c))) by (left; symmetry; apply surjective_pairing).
    unfold cx_plain. rewrite C2. destruct (judged_same _ _ _ _ J) as (S1 & S2). unfold ch_plain. rewrite S1, S2. split; [exact (proj1 K)|]. intros z I. apply (proj2 K).
    rewrite !in_app_iff in I. do 2 right. apply in_or_app. right. apply in_or_app. destruct I as [I|[I|I]].
    - left. unfold ch_plain. apply in_or_app. left. exact I.
    - left. unfold ch_plain. apply in_or_app. right. apply in_or_app. left. exact I.
    - right. exact (judged_strings _ _ _ _ J z I).
  Qed.
  Lemma uncached_plain secret full : keeps_secret secret (cx_plain (gr_ctx full)) -> keeps_secret secret (cx_plain (gr_ctx (uncached full))).
  Proof.
    intros K. refine (keeps_sub _ _ _ K _). unfold cx_plain, ch_plain, uncached. cbn [gr_ctx cx_chain ch_root ch_node ch_cache opt_list]. intros z I. rewrite ?in_app_iff in *. cbn [In] in I. tauto.
  Qed.
  Lemma recovered_made d k x : ctx_gen_import_recovery P d k = Val x -> made_root_keys x.
  Proof.
    unfold ctx_gen_import_recovery. destruct d as [d|]; [|discriminate]. destruct k as [k|]; [|discriminate]. destruct (cipher_result_from_buffer (Some d)) as [c| |]; [|discriminate..]. cbn [rbind].
    destruct (aes256_decrypt P (Some c) None (Some k) true) as [b| |]; [|discriminate..]. cbn [rbind]. apply (proj2 (proj2 (root_keys_parses P))).
  Qed.
  Lemma any_failure (U : Prop) fails : (forall n ty, In ty any_kind -> fails n ty = true -> U) -> some_failure fails -> U.
  Proof. intros H (n & ty & F). apply (H n ty); [|exact F]. unfold any_kind. destruct ty; cbn [In]; tauto. Qed.
  Lemma with_recovery_eq i d rk id s : made_cipher_key rk -> fst (ctx_gen_with_recovery P (Some i) (Some d) (Some rk) (Some id) s) =
    rbind (ctx_gen_import_recovery P (Some d) (Some rk)) (fun k => match fst (ctx_gen_with_root_keys P (Some i) (Some k) (Some id) s) with
      | Val r => Val {| gr_ctx := gr_ctx r; gr_recovery_key := rk; gr_root_keys := gr_root_keys r |} | Null => UB | UB => UB end).
  Proof.
    intros MR. unfold ctx_gen_with_recovery. rewrite bind_eq. unfold mres. cbn [fst snd]. destruct (ctx_gen_import_recovery P (Some d) (Some rk)) as [k| |]; [|reflexivity..]. cbn [rbind].
    rewrite bind_eq. unfold mtry. destruct (ctx_gen_with_root_keys P (Some i) (Some k) (Some id) s) as [[r| |] s1]; [|reflexivity..]. cbn [fst snd rbind]. rewrite (CopyFacts.cipher_key_made _ MR). reflexivity.
  Qed.
  Lemma recovered_engine d k x : ctx_gen_import_recovery P d k = Val x -> engine_key P (rk_signature x).
  Proof.
    unfold ctx_gen_import_recovery. destruct d as [d|]; [|discriminate]. destruct k as [k|]; [|discriminate]. destruct (cipher_result_from_buffer (Some d)) as [c| |]; [|discriminate..]. cbn [rbind].
    destruct (aes256_decrypt P (Some c) None (Some k) true) as [b| |]; [|discriminate..]. cbn [rbind]. unfold root_keys_create_from_buffer.
    destruct (pb_root_keys_unpack b) as [m|]; [|discriminate]. cbn [lift rbind]. destruct (pr_node m); [|discriminate]. destruct (pr_remote m); [|discriminate]. destruct (_ <? _); [discriminate|].
    destruct (cipher_key_from_protobytes _) as [a| |]; [|discriminate..]. cbn [rbind]. destruct (rtry _) as [r| |]; [|discriminate..]. cbn [rbind].
    match goal with |- context [ec_key_import P ?b true] => destruct (ec_key_import P b true) as [e|] eqn:E; [|discriminate] end.
    cbn [lift rbind]. destruct r as [r|]; [|discriminate]. cbn [root_keys_create lift]. intros V. apply Val_inj in V. subst x. exact (made_import P e _ _ E).
  Qed.
  Lemma gen_with_recovery_rule (A : aead_len_ok P) (C : ctr_ok P) (EO : ec_ok P) (GO : gen_ok P) (R : sign_ok P) (R1 : rand_ok P) (R2 : sha_ok P) i d rk id s draft
    (MI : made_dev_info (di_value i)) (MR : made_cipher_key (ck_value rk)) :
    or_rule gr_cells gr_value [di_cells i; buf_cells d; ck_cells rk; buf_cells id] (fst (ctx_gen_with_recovery P (Some (di_value i)) (Some (b_bytes d)) (Some (ck_value rk)) (Some (b_bytes id)) s))
      (uncached_of (fst (ctx_gen_with_recovery P (Some (di_value i)) (Some (b_bytes d)) (Some (ck_value rk)) (Some (b_bytes id)) s)))
      (recover_strings P (b_bytes d) (ck_value rk) (b_bytes id) s) [] any_kind some_failure (h_ctx_gen_with_recovery P (Some i) (Some d) (Some rk) (Some id) s draft).
  Proof.
    begin. unfold h_ctx_gen_with_recovery. rewrite (with_recovery_eq _ _ _ _ _ MR) in *. unfold recover_strings, of_recovered in K. pose proof (any_failure U fails HU) as FU.
    assert (HN : never_leaks_op fails -> W) by intros [].
    assert (KR : keeps_secret secret (recovery_public P (Some (b_bytes d)) (Some (ck_value rk)))) by (refine (keeps_sub _ _ _ K _); intros z I; apply in_or_app; left; exact I).
    assert (HK : forall l n ty, In ty l -> fails n ty = true -> U) by (intros l n ty _ F; apply FU; exists n, ty; exact F).
    pose proof (recovered_made (Some (b_bytes d)) (Some (ck_value rk))) as RM. pose proof (recovered_engine (Some (b_bytes d)) (Some (ck_value rk))) as RE.
    wstep. call (import_recovery_rule P A C (Some d) (Some rk) draft); cbn [option_map] in *; try exact (HK _).
    - intros V. apply HB. rewrite V. reflexivity.
    - out. left. rewrite N. reflexivity.
    - out. right. exact F.
    - rewrite V in *. cbn [rbind] in *. specialize (RM _ eq_refl). specialize (RE _ eq_refl).
      assert (KG : keeps_secret secret (gen_strings P (rk_value t) (b_bytes id) s)) by (refine (keeps_sub _ _ _ K _); intros z I; apply in_or_app; right; exact I).
      assert (HG : gen_leak P (rk_value t) (b_bytes id) s fails -> W) by (intros F; apply HW; exact (engine_leak EO GO R R1 _ _ _ _ RE F)).
      pose proof (gen_plain (di_value i) (rk_value t) (b_bytes id) s) as KP.
      wstep. callo (gen_with_root_keys_rule R R1 R2 i t id s RM MI); try exact (HK _).
      + intros V0. apply HB. rewrite V0. reflexivity.
      + rid root_keys_destroy_rule t; [exact K0|]. apply wp_ub. apply HB. rewrite N. reflexivity.
      + rid root_keys_destroy_rule t; [exact K0|]. apply wp_ub. exact (FU F).
      + rid root_keys_destroy_rule t; [exact K0|].
        assert (VR : exists full, fst (ctx_gen_with_root_keys P (Some (di_value i)) (Some (rk_value t)) (Some (b_bytes id)) s) = Val full /\
          (full = gr_value t0 \/ some_failure fails /\ gr_value t0 = uncached full)).
        { destruct V0 as [V0|(F & full & V0 & G)]; [exists (gr_value t0); split; [exact V0|left; reflexivity]|exists full; split; [exact V0|right; split; [exact F|exact G]]]. }
        destruct VR as (full & VF & VR). rewrite VF in *. clear V0. specialize (KP _ secret RM MI KG eq_refl).
        assert (KX : keeps_secret secret (cx_plain (cx_value (hgr_ctx t0)))).
        { change (cx_value (hgr_ctx t0)) with (gr_ctx (gr_value t0)). destruct VR as [<-|(_ & ->)]; [exact KP|exact (uncached_plain _ _ KP)]. }
        match goal with E : ext _ _ _ _ ?h |- wp _ _ _ ?h _ => unfold gr_cells in E; norm E end.
        wstep. wstep. wstep. drop cipher_key_destroy_rule (hgr_recovery t0); [exact K0|]. wstep.
        call (copy_op _ _ _ _ _ _ _ rk cipher_key_copy_rule MR); try exact (HK _).
        * discriminate.
        * discriminate N.
        * rid ctx_destroy_rule (hgr_ctx t0); [exact KX|]. rid root_keys_destroy_rule (hgr_root t0); [exact K0|]. out. right. exact F.
        * apply Val_inj in V0. repeat wstep. apply QS.
          -- match goal with E : ext _ _ _ _ ?h |- ext _ _ _ _ ?h => eapply ext_perm; [|exact E] end. unfold gr_cells. cbn [hgr_addr hgr_ctx hgr_recovery hgr_root]. solve_perm.
          -- match type of V0 with _ = ck_value ?q => change (gr_value {| hgr_addr := hgr_addr t0; hgr_ctx := hgr_ctx t0; hgr_recovery := q; hgr_root := hgr_root t0 |})
               with {| gr_ctx := gr_ctx (gr_value t0); gr_recovery_key := ck_value q; gr_root_keys := gr_root_keys (gr_value t0) |} end.
             rewrite <- V0. destruct VR as [->|(F & VR)]; [left; reflexivity|right]. split; [exact F|]. eexists. split; [reflexivity|]. rewrite VR. reflexivity.
  Qed.
  Lemma gen_with_passphrase_rule (A : aead_len_ok P) (C : ctr_ok P) (S1 : scrypt_ok P) (S2 : hkdf_ok P) (EO : ec_ok P) (GO : gen_ok P) (R : sign_ok P) (R1 : rand_ok P) (R2 : sha_ok P)
    i e p d id s draft1 draft2 (MI : made_dev_info (di_value i)) :
    or_rule gr_cells gr_value [di_cells i; buf_cells e; buf_cells p; buf_cells d; buf_cells id]
      (fst (ctx_gen_with_passphrase P (Some (di_value i)) (Some (b_bytes e)) (Some (b_bytes p)) (Some (b_bytes d)) (Some (b_bytes id)) s))
      (uncached_of (fst (ctx_gen_with_passphrase P (Some (di_value i)) (Some (b_bytes e)) (Some (b_bytes p)) (Some (b_bytes d)) (Some (b_bytes id)) s)))
      (passphrase_strings P (b_bytes e) (b_bytes p) (b_bytes d) (b_bytes id) s) (kdf_decipher_derived P (b_bytes e) (b_bytes p)) any_kind (kdf_decipher_leak P (b_bytes e) (b_bytes p))
      (h_ctx_gen_with_passphrase P (Some i) (Some e) (Some p) (Some d) (Some id) s draft1 draft2).
  Proof.
    begin. unfold h_ctx_gen_with_passphrase. pose proof (any_failure U fails HU) as FU.
    assert (PE : fst (ctx_gen_with_passphrase P (Some (di_value i)) (Some (b_bytes e)) (Some (b_bytes p)) (Some (b_bytes d)) (Some (b_bytes id)) s) =
      rbind (import_recovery_key_passphrase P (Some (b_bytes e)) (Some (b_bytes p))) (fun k => fst (ctx_gen_with_recovery P (Some (di_value i)) (Some (b_bytes d)) (Some k) (Some (b_bytes id)) s))).
    { unfold ctx_gen_with_passphrase, import_recovery_key_passphrase. rewrite bind_eq. unfold mres. cbn [fst snd]. destruct (kdf_decipher _ _ _) as [b| |]; [|reflexivity..]. cbn [rbind].
      rewrite bind_eq. cbn [fst snd]. destruct (cipher_key_from_buffer _); reflexivity. }
    rewrite PE in *. clear PE. unfold passphrase_strings in K.
    assert (HN : never_leaks_op fails -> W) by intros []. assert (HF : some_failure fails -> W) by (intros F; apply HW; left; exact F).
    assert (HK : forall l n ty, In ty l -> fails n ty = true -> U) by (intros l n ty _ F; apply FU; exists n, ty; exact F).
    assert (KU : keeps_secret secret (unprotect_public P no_bytes (Some (b_bytes e)) (Some (b_bytes p)))) by (refine (keeps_sub _ _ _ K _); intros z I; apply in_or_app; left; exact I).
    change (h_open (h_kdf_decipher P (Some e) (Some p) draft1) h_cipher_key_from_bytes) with (h_import_recovery_key_passphrase P (Some e) (Some p) draft1).
    assert (MD : forall k, import_recovery_key_passphrase P (Some (b_bytes e)) (Some (b_bytes p)) = Val k -> made_cipher_key k).
    { intros k. unfold import_recovery_key_passphrase. destruct (kdf_decipher _ _ _) as [b| |]; [|discriminate..]. cbn [rbind]. apply key_made. }
    wstep. call (import_recovery_key_rule P A C S1 S2 (Some e) (Some p) draft1); cbn [option_map] in *; try exact (HK _).
    - intros V. apply HB. rewrite V. reflexivity.
    - out. left. rewrite N. reflexivity.
    - out. right. exact F.
    - rewrite V in *. cbn [rbind plain_of] in *. specialize (MD _ eq_refl).
      assert (KG : keeps_secret secret (recover_strings P (b_bytes d) (ck_value t) (b_bytes id) s)) by (refine (keeps_sub _ _ _ K _); intros z I; apply in_or_app; right; exact I).
      wstep. callo (gen_with_recovery_rule A C EO GO R R1 R2 i d t id s draft2 MI MD); try exact (HK _).
      + exact HB.
      + rid cipher_key_destroy_rule t; [exact K0|]. out. left. exact N.
      + rid cipher_key_destroy_rule t; [exact K0|]. out. right. exact F.
      + rid cipher_key_destroy_rule t; [exact K0|]. wstep. there. exact V0.
  Qed.

  (* --- a stored context --- *)
  Lemma ctx_from_message_rule (R : sha_ok P) i m : change_rule [] (di_cells i) (taken cx_cells (di_cells i)) (makes cx_value (ctx_create_from_proto P (Some (di_value i)) (Some m)))
    (ctx_public P m) [] parse_kinds some_failure (h_ctx_from_message P i m).
  Proof.
    begin_change. unfold h_ctx_from_message, ctx_create_from_proto, ctx_public, parse_kinds in *. assert (HN : never_leaks_op fails -> W) by intros [].
    destruct (px_chain m) as [mc|]; [|wstep; apply QA; [exact E|left; reflexivity]]. destruct (px_storage m) as [ms|]; [|wstep; apply QA; [exact E|left; reflexivity]]. cbn [opt_plain] in K.
    wstep. eapply (chain_message_rule P) with (W := W); [untested_tac|exact HW|exact E|exact K| |].
    - intros h1 E1 N. wstep. apply QA; [exact E1|]. destruct N as [N|F]; [left; rewrite N; reflexivity|right; exact F].
    - intros c h1 E1 V. rewrite V in *. cbn [rbind] in *. assert (KC : keeps_secret secret (ch_plain (ch_value c))) by (refine (keeps_sub _ _ _ K _); exact (chain_sourced P _ _ V)).
      clear E. wstep. eapply storage_keys_message_rule with (W := W); [untested_tac|intros []|exact E1|exact K0| |].
      + intros h2 E2 N. clear E1. rid chain_destroy_rule c; [exact KC|]. repeat wstep. apply QA; [match goal with G : ext _ _ _ _ ?h |- ext _ _ _ _ ?h => exact G end|]. destruct N as [N|F]; [left; rewrite N; reflexivity|right; exact F].
      + intros k h2 E2 V2. rewrite V2 in *. cbn [rbind] in *. clear E1. wstep.
        eapply (ctx_create_rule R i c k) with (W := W) (X := X); [untested_tac|exact HW|eapply ext_perm; [|exact E2]; solve_perm|apply Forall_nil|exact K0|intros _; exact K0|]. clear E2.
        intros [x|] h3 E3 B; unfold taken, makes in *.
        * wstep. apply QA; [exact E3|exact B].
        * norm E3. rid chain_destroy_rule c; [exact KC|]. rid storage_keys_destroy_rule k; [exact K0|]. repeat wstep. apply QA; [match goal with G : ext _ _ _ _ ?h |- ext _ _ _ _ ?h => exact G end|exact B].
  Qed.
  Lemma ctx_from_bytes_rule (R : sha_ok P) i b : change_rule [] (di_cells i) (taken cx_cells (di_cells i)) (makes cx_value (ctx_create_from_buffer P (Some (di_value i)) (Some b)))
    (ctx_bytes_public P b) [] parse_kinds some_failure (h_ctx_from_bytes P i b).
  Proof.
    begin_change. unfold h_ctx_from_bytes, from_proto, h_unpack, h_free_unpacked, ctx_create_from_buffer in *. unfold ctx_bytes_public, of_message in K.
    wstep. destruct (pb_ctx_unpack b) as [m|]; [|repeat wstep; apply QA; [exact E|left; reflexivity]].
    assert (KF : keeps_secret secret (ctx_fields m)) by (refine (keeps_sub _ _ _ K _); intros y I; apply in_or_app; left; exact I).
    assert (KM : keeps_secret secret (ctx_public P m)) by (refine (keeps_sub _ _ _ K _); intros y I; apply in_or_app; right; exact I).
    wstep. eapply alloc_all_wp; [exact E|exact KF| |].
    - intros h1 E1 F. wstep. wstep. apply QA; [exact E1|right; exact F].
    - intros bs h1 E1 LB. wstep. wstep. cbn [fst snd].
      eapply (ctx_from_message_rule R i m) with (W := W) (h0 := h0); [exact HU|exact HW|eapply ext_perm; [apply HeapFacts.perm_swap|exact E1]|apply Forall_nil|exact KM|exact KE|]. clear E1.
      intros o h2 E2 B. wstep. eapply free_all_wp; [eapply ext_perm; [apply HeapFacts.perm_swap|exact E2]|exact KF|exact LB|].
      intros h3 E3. wstep. apply QA; assumption.
  Qed.
  Lemma ctx_import_rule (A : aead_len_ok P) (C : ctr_ok P) (S1 : scrypt_ok P) (S2 : hkdf_ok P) (R : sha_ok P) i e p draft : change_rule [buf_cells e; buf_cells p] (di_cells i) (taken cx_cells (di_cells i))
    (makes cx_value (ctx_import P (Some (di_value i)) (Some (b_bytes e)) (Some (b_bytes p))))
    (unprotect_public P (ctx_bytes_public P) (Some (b_bytes e)) (Some (b_bytes p))) (kdf_decipher_derived P (b_bytes e) (b_bytes p)) (T_cipher_result :: parse_kinds)
    (kdf_decipher_leak P (b_bytes e) (b_bytes p)) (h_ctx_import P (Some i) (Some e) (Some p) draft).
  Proof.
    begin_change. unfold h_ctx_import, h_open, ctx_import in *. cbn [unprotect_public] in K. pose proof (CtxSafety.kdf_decipher_safe P (Some (b_bytes e)) (Some (b_bytes p))) as NU.
    assert (KD : keeps_secret secret (kdf_decipher_public (b_bytes e) (b_bytes p))) by (refine (keeps_sub _ _ _ K _); intros z I; apply in_or_app; left; exact I).
    assert (HF : some_failure fails -> W) by (intros F; apply HW; left; exact F). unfold parse_kinds in HU.
    wstep. call (kdf_decipher_rule P A C S1 S2 e p draft).
    - intros V. destruct (NU V).
    - wstep. apply QA; [eassumption|left; rewrite N; reflexivity].
    - wstep. apply QA; [eassumption|right; exact F].
    - rewrite V in *. cbn [rbind plain_of] in *. rdh. wstep.
      assert (KB : keeps_secret secret (ctx_bytes_public P (b_bytes t))) by (refine (keeps_sub _ _ _ K _); intros z I; apply in_or_app; right; exact I).
      match goal with G : ext _ _ ?b _ ?h |- wp _ _ _ ?h _ => eapply (ctx_from_bytes_rule R i (b_bytes t)) with (W := W) (h0 := b);
        [untested_tac|exact HF|eapply ext_perm; [apply HeapFacts.perm_swap|exact G]|apply Forall_nil|exact KB|intros _; exact K0|]; clear G end.
      intros o h2 E2 B. wstep. wipe t. wstep. apply QA; [|exact B]. match goal with G : ext _ _ _ _ ?h |- ext _ _ _ _ ?h => exact G end.
  Qed.

  (* --- when nothing fails --- *)
  Lemma chain_after_never c a : chain_after P c never a -> chain_after_ok P c a.
  Proof. intros (A & [B|(F & _)]); [exact (conj A B)|destruct (never_fails F)]. Qed.
  Lemma node_after_never n a : node_after P n never a -> node_after_ok P n a.
  Proof. intros (A & [B|(F & _)]); [exact (conj A B)|destruct (never_fails F)]. Qed.
  Lemma gen_fits k id s : (forall q, ek_pri (rk_signature k) = Some q -> p_d2i P q <> None) -> ~ new_chain_rejected P k id s -> ~ gen_leak P k id s never.
  Proof. intros A B [F|[(q & Q1 & Q2)|F]]; [destruct (never_fails F)|exact (A q Q1 Q2)|exact (B F)]. Qed.
  Lemma sig_fits (sk : ec_key) id s : (forall q, ek_pri sk = Some q -> p_d2i P q <> None) ->
    (forall k, fst (root_keys_generate P s) = Val k -> ~ new_chain_rejected P (with_sig k (Some sk)) id (3 + s)) ->
    ~ of_new_keys P s (some_failure never) (fun k => gen_leak P (with_sig k (Some sk)) id (3 + s) never).
  Proof.
    intros A B. unfold of_new_keys. destruct (fst (root_keys_generate P s)) as [k| |]; [|exact never_fails..]. apply gen_fits; [exact A|exact (B k eq_refl)].
  Qed.
  Lemma decipher_fits e p : ~ not_a_ciphertext P e p -> (forall m, kdf_meta_create_with_buffer (Some e) = Val m -> ~ empty_bcrypt (km_algo m) p) -> ~ kdf_decipher_leak P e p never.
  Proof. intros A B [F|[F|(m & M & F)]]; [destruct (never_fails F)|exact (A F)|exact (B m M F)]. Qed.
  Lemma makes_never {T V} (value : T -> V) pure o : makes value pure never o -> makes_ok value pure o.
  Proof. destruct o as [t|]; [exact (fun H => H)|]. intros [N|F]; [exact N|destruct (never_fails F)]. Qed.
  (* whatever fails, a chain that is not signed is not accepted *)
  Lemma accepted_chain (R : sha_ok P) c fails h b c' h' : heap_ok h -> in_memory h (ch_cells c) ->
    h_chain_validate P c fails h = Some ((b, c'), h') -> (b = true -> chain_passes P (ch_value c)) /\ ch_root (ch_value c') = ch_root (ch_value c) /\ ch_node (ch_value c') = ch_node (ch_value c).
  Proof.
    intros OK M V. pose (secret := fun _ : bytes => False). assert (K : forall l, keeps_secret secret l) by (intros l; split; [intros ? []|intros z _ []]). pose proof (change_sound _ _ _ _ _ _ _ _ _ (chain_validate_rule R c) secret fails h OK M (Forall_nil _) (Forall_nil _) (K _) (fun _ => K _)) as G.
    rewrite V in G. destruct G as (L & _ & _ & _ & (_ & J)). cbn [fst snd] in J. split; [|exact (judged_same _ _ _ _ J)]. intros ->. exact (proj1 (judged_valid _ _ _ J)).
  Qed.
  Lemma accepted_node (R : sha_ok P) n fails h b n' h' : heap_ok h -> in_memory h (nd_cells n) ->
    h_node_verify_signature_chain P n fails h = Some ((b, n'), h') ->
    b = true -> fst (node_verify_signature_chain P (nd_value n)) = true \/
      chain_passes P (nd_chain (nd_value n)) /\ keypair_verify_owner P (nd_keypair (nd_value n)) (Some (ch_node (nd_chain (nd_value n)))) = true.
  Proof.
    intros OK M V. pose (secret := fun _ : bytes => False). assert (K : forall l, keeps_secret secret l) by (intros l; split; [intros ? []|intros z _ []]). pose proof (change_sound _ _ _ _ _ _ _ _ _ (node_verify_rule R n) secret fails h OK M (Forall_nil _) (Forall_nil _) (K _) (fun _ => K _)) as G.
    rewrite V in G. destruct G as (L & _ & _ & _ & (_ & J)). cbn [fst snd] in J. intros ->. destruct J as [J|(_ & A & _)]; [left; rewrite <- J; reflexivity|right; exact (A eq_refl)].
  Qed.
End context.
