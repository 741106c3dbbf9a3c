(* C34, C35: the validation caches *)
From Coq Require Import ZifyBool ZifyNat ZifyN.
From Verif.Base Require Import Bytes Monad.
From Verif.Model Require Import Buffer Cipher Ecdsa Prims Engine Proto Identity Node.
From Verif.Spec Require Import BufferSpec CodecSpec IdentitySpec.
From Verif.Proofs Require Import BytesFacts BufferFacts BufferProps CodecFacts EngineFacts IdentityFacts.
Ltac Zify.zify_post_hook ::= Z.div_mod_to_equations.
Local Open Scope N_scope.

Definition st_of (b : bool) : status := if b then S_VALID else S_INVALID.
Definition is_valid_st (s : status) : bool := match s with S_VALID => true | _ => false end.
Lemma is_valid_st_of b : is_valid_st (st_of b) = b.
Proof. destruct b; reflexivity. Qed.
Lemma status_byte_inj s t : n2b (status_int s) = n2b (status_int t) -> s = t.
Proof. destruct s, t; intros H; (reflexivity || discriminate). Qed.

Definition chain_msg (r n : identity) (s : ecdsa_result) (st : status) : bytes :=
  (pub_of r ++ es_sig s ++ pub_of n ++ [n2b (status_int st)])%list.
Lemma chain_cache_Some P c v : chain_make_status_cache P c = Some v ->
  exists s, id_signature (ch_node c) = Some s /\ v = p_sha P SHA512 (chain_msg (ch_root c) (ch_node c) s (ch_status c)).
Proof.
  unfold chain_make_status_cache. destruct (id_signature (ch_node c)) as [s|]; [|discriminate].
  destruct (buffer_concat_multi _) as [x|] eqn:E; [|discriminate]. apply concat_multi_Some in E. destruct E as [-> _].
  unfold sha2. cbn [map obytes concat]. rewrite !app_nil_r. intros H. apply Some_inj in H. subst v. exists s. split; reflexivity.
Qed.
Lemma has_valid_cache_inv P c : chain_has_valid_cache P c = true ->
  exists v, ch_cache c = Some v /\ chain_make_status_cache P c = Some v.
Proof.
  unfold chain_has_valid_cache. destruct (ch_cache c) as [v|]; [|discriminate]. unfold buffer_is_equal.
  destruct (chain_make_status_cache P c) as [w|]; [|discriminate]. intros H. apply andb_prop in H. destruct H as [_ H].
  apply beqb_spec in H. subst w. eauto.
Qed.
Lemma in_messages c s st : id_signature (ch_node c) = Some s -> In (chain_msg (ch_root c) (ch_node c) s st) (chain_messages c).
Proof. intros H. unfold chain_messages. rewrite H. destruct st; cbn; auto. Qed.
Lemma verify_digest P s t k d : es_digest s = es_digest t -> es_sig s = es_sig t -> ec_verify P (Some s) k d = ec_verify P (Some t) k d.
Proof. intros A B. unfold ec_verify. rewrite A, B. reflexivity. Qed.
Lemma verify_pub P s k k' d : ek_pub k = ek_pub k' -> ec_verify P s (Some k) d = ec_verify P s (Some k') d.
Proof. intros A. unfold ec_verify. rewrite A. reflexivity. Qed.

(* what the cache of a chain remembers: a chain of the past and whether it was valid *)
Definition chain_inv (P : prims) (H : list bytes) (c : chain) : Prop :=
  forall v, ch_cache c = Some v -> exists c0 s, id_signature (ch_node c0) = Some s /\ regular_chain c0 /\
    let m := chain_msg (ch_root c0) (ch_node c0) s (st_of (chain_truth P c0)) in In m H /\ v = p_sha P SHA512 m.
Lemma chain_inv_more P H H' c : incl H H' -> chain_inv P H c -> chain_inv P H' c.
Proof. intros I C v Hv. destruct (C v Hv) as (c0 & s & A & B & M & E). exists c0, s. cbv zeta. auto. Qed.

Lemma chain_msg_inj c c0 s s0 st st0 : regular_chain c -> regular_chain c0 ->
  chain_msg (ch_root c) (ch_node c) s st = chain_msg (ch_root c0) (ch_node c0) s0 st0 ->
  pub_of (ch_root c) = pub_of (ch_root c0) /\ es_sig s = es_sig s0 /\ pub_of (ch_node c) = pub_of (ch_node c0) /\ st = st0.
Proof.
  intros (R1 & N1 & _) (R2 & N2 & _) E. unfold full_size, chain_msg, pub_of in *. pose proof (f_equal (@length _) E) as L.
  rewrite !app_length in L. cbn [length] in L.
  apply app_inj_length_l' in E; [|lia]. destruct E as [E1 E].
  apply app_inj_length_l' in E; [|lia]. destruct E as [E2 E].
  apply app_inj_length_l' in E; [|lia]. destruct E as [E3 E].
  injection E as E. apply status_byte_inj in E. auto.
Qed.
Lemma cached_answer P H c : regular_chain c -> chain_inv P H c -> collision_free P (H ++ chain_messages c) ->
  chain_has_valid_cache P c = true -> ch_status c = st_of (chain_truth P c).
Proof.
  intros R I CF V. apply has_valid_cache_inv in V. destruct V as (v & Hc & Hm). apply chain_cache_Some in Hm. destruct Hm as (s & Hs & Ev).
  destruct (I v Hc) as (c0 & s0 & Hs0 & R0 & Hin & Ev0). cbv zeta in Hin.
  assert (E : chain_msg (ch_root c) (ch_node c) s (ch_status c) = chain_msg (ch_root c0) (ch_node c0) s0 (st_of (chain_truth P c0))).
  { apply CF; [| |congruence]; apply in_or_app; [right; apply in_messages; exact Hs|left; exact Hin]. }
  apply chain_msg_inj in E; [|exact R|exact R0]. destruct E as (E1 & E2 & E3 & E4). rewrite E4. f_equal.
  unfold chain_truth. rewrite Hs, Hs0, E3. rewrite (verify_pub P _ (id_key (ch_root c)) (id_key (ch_root c0))) by exact E1.
  apply verify_digest; [|symmetry; exact E2]. destruct R as (_ & _ & D), R0 as (_ & _ & D0). rewrite (D _ Hs), (D0 _ Hs0). reflexivity.
Qed.
Lemma truth_same P c c' : ch_root c' = ch_root c -> ch_node c' = ch_node c -> chain_truth P c' = chain_truth P c.
Proof. intros A B. unfold chain_truth. rewrite A, B. reflexivity. Qed.
(* one validation *)
Lemma validate_ok P H c : regular_chain c -> chain_inv P H c -> collision_free P (H ++ chain_messages c) ->
  fst (chain_validate P c) = chain_truth P c /\
  ch_root (snd (chain_validate P c)) = ch_root c /\ ch_node (snd (chain_validate P c)) = ch_node c /\
  ch_status (snd (chain_validate P c)) = st_of (chain_truth P c) /\
  chain_inv P (H ++ chain_messages c) (snd (chain_validate P c)).
Proof.
  intros R I CF. unfold chain_validate. destruct (chain_has_valid_cache P c) eqn:V; cbn [fst snd].
  - pose proof (cached_answer P H c R I CF V) as E. rewrite E. split; [destruct (chain_truth P c); reflexivity|].
    split; [reflexivity|]. split; [reflexivity|]. split; [reflexivity|]. eapply chain_inv_more; [|exact I]. apply incl_appl, incl_refl.
  - unfold chain_update_status_cache, chain_set_status. cbn [ch_root ch_node ch_status ch_cache].
    split; [reflexivity|]. split; [reflexivity|]. split; [reflexivity|]. split; [reflexivity|].
    intros v Hv. cbn [ch_cache] in Hv. apply chain_cache_Some in Hv. cbn [ch_root ch_node ch_status] in Hv. destruct Hv as (s & Hs & ->).
    exists c, s. split; [exact Hs|]. split; [exact R|]. cbv zeta. split; [apply in_or_app; right; apply in_messages; exact Hs|reflexivity].
Qed.
Lemma create_same_key k k' : ec_key_copy (Some k) = Some k' -> k' = k.
Proof.
  unfold ec_key_copy. destruct (buffer_copy (Some (ek_pub k))) as [p|] eqn:E; [|discriminate]. apply buffer_copy_Some in E. destruct E as [E _]. apply Some_inj in E. subst p.
  destruct (ek_pri k) as [q|] eqn:Q.
  - destruct (buffer_copy (Some q)) as [q'|] eqn:F; [|discriminate]. apply buffer_copy_Some in F. destruct F as [F _]. apply Some_inj in F. subst q'.
    unfold ec_key_create. intros H. apply Some_inj in H. subst k'. destruct k. cbn in *. subst. reflexivity.
  - unfold ec_key_create. intros H. apply Some_inj in H. subst k'. destruct k. cbn in *. subst. reflexivity.
Qed.
Lemma sig_copy_same s s' : ecdsa_result_copy (Some s) = Some s' -> s' = s.
Proof.
  unfold ecdsa_result_copy. destruct (buffer_copy (Some (es_sig s))) as [p|] eqn:E; [|discriminate]. apply buffer_copy_Some in E. destruct E as [E _]. apply Some_inj in E. subst p.
  unfold ecdsa_result_create. intros H. apply Some_inj in H. subst s'. destruct s. reflexivity.
Qed.
(* a copied identity is the original or the original without its signature *)
Lemma identity_copy_same x y : identity_copy (Some x) = Some y ->
  id_type y = id_type x /\ id_identifier y = id_identifier x /\ id_key y = id_key x /\ (id_signature y = id_signature x \/ id_signature y = None).
Proof.
  unfold identity_copy. destruct (buffer_copy (Some (id_identifier x))) as [i|] eqn:E; [|discriminate]. apply buffer_copy_Some in E. destruct E as [E _]. apply Some_inj in E. subst i.
  destruct (ec_key_copy (Some (id_key x))) as [k|] eqn:K; [|discriminate]. apply create_same_key in K. subst k.
  unfold identity_create. destruct (MAX_IDENTIFIER_LEN <=? _); [discriminate|]. intros H. apply Some_inj in H. subst y.
  cbn [id_type id_identifier id_key id_signature]. repeat split. destruct (id_signature x) as [s|]; [|auto].
  destruct (ecdsa_result_copy (Some s)) as [s'|] eqn:S; [|auto]. apply sig_copy_same in S. subst s'. auto.
Qed.
Lemma chain_copy_same c c' : chain_copy (Some c) = Some c' ->
  identity_copy (Some (ch_root c)) = Some (ch_root c') /\ identity_copy (Some (ch_node c)) = Some (ch_node c') /\
  ch_status c' = ch_status c /\ ch_cache c' = ch_cache c.
Proof.
  unfold chain_copy. destruct (identity_copy (Some (ch_root c))) as [r|]; [|discriminate]. destruct (identity_copy (Some (ch_node c))) as [n|]; [|discriminate].
  destruct (ch_cache c) as [v|] eqn:V.
  - destruct (buffer_copy (Some v)) as [w|] eqn:W; [|discriminate]. apply buffer_copy_Some in W. destruct W as [W _]. apply Some_inj in W. subst w.
    intros H. apply Some_inj in H. subst c'. auto.
  - cbn [buffer_copy]. intros H. apply Some_inj in H. subst c'. auto.
Qed.
Lemma step_inv P H o c : regular_chain c -> chain_inv P H c -> collision_free P (H ++ chain_messages c) ->
  chain_inv P (H ++ chain_messages c) (snd (chain_step P o c)) /\
  (forall b, fst (chain_step P o c) = Some b -> b = chain_truth P c).
Proof.
  intros R I CF. destruct o; cbn [chain_step].
  - destruct (validate_ok P H c R I CF) as (A & _ & _ & _ & B). destruct (chain_validate P c) as [b c']. cbn [fst snd] in *.
    split; [exact B|]. intros b' E. congruence.
  - cbn [fst snd]. split; [|discriminate]. eapply (chain_inv_more P H); [apply incl_appl, incl_refl|].
    destruct (chain_copy (Some c)) as [c'|] eqn:C; [|exact I]. apply chain_copy_same in C. destruct C as (_ & _ & _ & C).
    intros v Hv. rewrite C in Hv. exact (I v Hv).
  - cbn [fst snd]. split; [|discriminate]. eapply (chain_inv_more P H); [apply incl_appl, incl_refl|].
    intros v Hv. cbn [ch_cache] in Hv. exact (I v Hv).
Qed.
Lemma trace_ok P : forall ops H c, chain_inv P H c ->
  (forall x a, In (x, a) (chain_trace P c ops) -> regular_chain x) ->
  collision_free P (H ++ flat_map (fun xa => chain_messages (fst xa)) (chain_trace P c ops)) ->
  answers_right (chain_truth P) (chain_trace P c ops).
Proof.
  induction ops as [|o ops IH]; intros H c I R CF.
  - intros x b [].
  - cbn [chain_trace] in *. destruct (chain_step P o c) as [a c'] eqn:S. cbn [flat_map fst] in CF. rewrite app_assoc in CF.
    assert (Rc : regular_chain c) by (apply (R c a); left; reflexivity).
    assert (CF1 : collision_free P (H ++ chain_messages c)).
    { intros x y Hx Hy. apply CF; apply in_or_app; left; assumption. }
    destruct (step_inv P H o c Rc I CF1) as [I' A]. rewrite S in *. cbn [fst snd] in *.
    intros x b [E|Hin].
    + injection E as <- ->. apply A. reflexivity.
    + apply (IH (H ++ chain_messages c)%list c' I'); [|exact CF|exact Hin]. intros x0 a0 H0. apply (R x0 a0). right. exact H0.
Qed.
Lemma chain_history P root node c ops : chain_create (Some root) (Some node) = Some c ->
  (forall x a, In (x, a) (chain_trace P c ops) -> regular_chain x) ->
  collision_free P (flat_map (fun xa => chain_messages (fst xa)) (chain_trace P c ops)) ->
  answers_right (chain_truth P) (chain_trace P c ops).
Proof.
  intros C R CF. apply (trace_ok P ops [] c); [|exact R|exact CF].
  cbn [chain_create] in C. apply Some_inj in C. subst c. intros v Hv. discriminate.
Qed.
(* without edits nothing is needed of the digest *)
Definition fresh_inv (P : prims) (c : chain) : Prop :=
  ch_cache c <> None -> id_signature (ch_node c) = None \/ ch_status c = st_of (chain_truth P c).
Lemma fresh_step P o c : no_edit o -> fresh_inv P c ->
  fresh_inv P (snd (chain_step P o c)) /\ (forall b, fst (chain_step P o c) = Some b -> b = chain_truth P c).
Proof.
  intros NE I. destruct o; [| |destruct NE]; cbn [chain_step].
  - unfold chain_validate. destruct (chain_has_valid_cache P c) eqn:V; cbn [fst snd].
    + split; [exact I|]. apply has_valid_cache_inv in V. destruct V as (v & Hc & Hm). apply chain_cache_Some in Hm. destruct Hm as (s & Hs & _).
      destruct I as [I|I]; [congruence|congruence|]. intros b E. apply Some_inj in E. subst b. rewrite I. destruct (chain_truth P c); reflexivity.
    + split; [|intros b E; apply Some_inj in E; subst b; reflexivity].
      intros _. right. unfold chain_update_status_cache, chain_set_status. cbn [ch_status]. unfold chain_truth. cbn [ch_node ch_root]. reflexivity.
  - cbn [fst snd]. split; [|discriminate]. destruct (chain_copy (Some c)) as [c'|] eqn:C; [|exact I].
    apply chain_copy_same in C. destruct C as (Cr & Cn & Cs & Cc). intros Hc. rewrite Cc in Hc.
    apply identity_copy_same in Cr, Cn. destruct Cr as (_ & _ & Kr & _), Cn as (_ & _ & Kn & Sn).
    destruct Sn as [Sn|Sn]; [|left; exact Sn]. destruct (I Hc) as [E|E]; [left; congruence|right]. rewrite Cs, E. f_equal.
    unfold chain_truth, pub_of. rewrite Kr, Kn, Sn. reflexivity.
Qed.
Lemma fresh_trace P : forall ops c, Forall no_edit ops -> fresh_inv P c -> answers_right (chain_truth P) (chain_trace P c ops).
Proof.
  induction ops as [|o ops IH]; intros c NE I; [intros x b []|].
  cbn [chain_trace]. destruct (chain_step P o c) as [a c'] eqn:S. inversion NE; subst.
  destruct (fresh_step P o c H1 I) as [I' A]. rewrite S in *. cbn [fst snd] in *.
  intros x b [E|Hin]; [injection E as <- ->; apply A; reflexivity|]. exact (IH c' H2 I' x b Hin).
Qed.
Lemma chain_unchanged P root node c ops : chain_create (Some root) (Some node) = Some c -> Forall no_edit ops ->
  answers_right (chain_truth P) (chain_trace P c ops).
Proof. intros C NE. apply fresh_trace; [exact NE|]. cbn [chain_create] in C. apply Some_inj in C. subst c. intros H. destruct (H eq_refl). Qed.

(* --- nodes *)
Definition kp_msg (k : keypair) (s : ecdsa_result) (st : status) : bytes := (ek_pub (kp_key k) ++ es_sig s ++ [n2b (status_int st)])%list.
Definition kp_truth (P : prims) (c : chain) (k : option keypair) : bool :=
  match k with
  | None => false
  | Some x => ec_verify P (kp_signature x) (Some (id_key (ch_node c))) (Some (ek_pub (kp_key x)))
  end.
Lemma node_truth_eq P n : node_truth P n = chain_truth P (nd_chain n) && kp_truth P (nd_chain n) (nd_keypair n).
Proof. reflexivity. Qed.
Lemma node_cache_Some P n v : node_make_status_cache P n = Some v ->
  exists k s, nd_keypair n = Some k /\ kp_signature k = Some s /\ v = p_sha P SHA512 (kp_msg k s (nd_status n)).
Proof.
  unfold node_make_status_cache. destruct (nd_keypair n) as [k|]; [|discriminate]. destruct (kp_signature k) as [s|] eqn:Hs; [|discriminate].
  destruct (ch_cache (nd_chain n)); [|discriminate].
  destruct (buffer_concat_multi _) as [x|] eqn:E; [|discriminate]. apply concat_multi_Some in E. destruct E as [-> _].
  unfold sha2. cbn [map obytes concat]. rewrite !app_nil_r. intros H. apply Some_inj in H. subst v. exists k, s. auto.
Qed.
Lemma in_node_messages n k s st : nd_keypair n = Some k -> kp_signature k = Some s -> In (kp_msg k s st) (node_messages n).
Proof. intros A B. unfold node_messages. rewrite A, B. destruct st; cbn; auto. Qed.
Definition good_kp (k : keypair) : Prop := full_size (kp_key k) /\ (forall s, kp_signature k = Some s -> es_digest s = SHA512).
Definition node_inv (P : prims) (H : list bytes) (n : node) : Prop :=
  fresh_inv P (nd_chain n) /\
  forall v, nd_cache n = Some v -> id_signature (ch_node (nd_chain n)) = None \/
    exists k s, kp_signature k = Some s /\ good_kp k /\
      let m := kp_msg k s (st_of (chain_truth P (nd_chain n) && kp_truth P (nd_chain n) (Some k))) in
      In m H /\ v = p_sha P SHA512 m.
Lemma kp_msg_inj k k0 s s0 st st0 : full_size (kp_key k) -> full_size (kp_key k0) -> kp_msg k s st = kp_msg k0 s0 st0 ->
  ek_pub (kp_key k) = ek_pub (kp_key k0) /\ es_sig s = es_sig s0 /\ st = st0.
Proof.
  unfold full_size, kp_msg. intros F F0 E. pose proof (f_equal (@length _) E) as L. rewrite !app_length in L. cbn [length] in L.
  apply app_inj_length_l' in E; [|lia]. destruct E as [E1 E].
  apply app_inj_length_l' in E; [|lia]. destruct E as [E2 E]. injection E as E. apply status_byte_inj in E. auto.
Qed.
Lemma kp_truth_same P c c' k : id_key (ch_node c') = id_key (ch_node c) -> kp_truth P c' k = kp_truth P c k.
Proof. intros A. unfold kp_truth. rewrite A. reflexivity. Qed.
Lemma node_inv_chain P H n n' : node_inv P H n -> nd_cache n' = nd_cache n -> fresh_inv P (nd_chain n') ->
  ch_root (nd_chain n') = ch_root (nd_chain n) -> ch_node (nd_chain n') = ch_node (nd_chain n) -> node_inv P H n'.
Proof.
  intros (F & I) E F' Er En. split; [exact F'|]. intros v Hv. rewrite E in Hv. destruct (I v Hv) as [A|(k & s & A & B & C)]; [left; congruence|].
  right. exists k, s. split; [exact A|]. split; [exact B|]. rewrite (truth_same P (nd_chain n) (nd_chain n')) by assumption.
  rewrite (kp_truth_same P (nd_chain n) (nd_chain n')) by congruence. exact C.
Qed.
Lemma node_inv_more P H H' n : incl H H' -> node_inv P H n -> node_inv P H' n.
Proof.
  intros L (F & I). split; [exact F|]. intros v Hv. destruct (I v Hv) as [A|(k & s & A & B & C & D)]; [left; exact A|].
  right. exists k, s. split; [exact A|]. split; [exact B|]. cbv zeta. auto.
Qed.
Lemma validate_fields P c : ch_root (snd (chain_validate P c)) = ch_root c /\ ch_node (snd (chain_validate P c)) = ch_node c /\
  (fst (chain_validate P c) = true -> ch_status (snd (chain_validate P c)) = S_VALID).
Proof.
  unfold chain_validate. destruct (chain_has_valid_cache P c); cbn [fst snd].
  - repeat split. destruct (ch_status c); intros H; (reflexivity || discriminate).
  - unfold chain_update_status_cache, chain_set_status. cbn [ch_root ch_node ch_status]. repeat split. intros ->. reflexivity.
Qed.
Lemma validate_fresh P c : fresh_inv P c -> fresh_inv P (snd (chain_validate P c)) /\ fst (chain_validate P c) = chain_truth P c.
Proof.
  intros I. pose proof (fresh_step P Validate c Logic.I I) as [A B]. cbn [chain_step] in *. destruct (chain_validate P c) as [b c']. cbn [fst snd] in *.
  split; [exact A|]. apply B. reflexivity.
Qed.
(* the new cache after a full check *)
Lemma node_updated P H n : regular_keypair n -> fresh_inv P (nd_chain n) -> nd_status n = st_of (node_truth P n) ->
  node_inv P (H ++ node_messages n) (node_update_status_cache P n).
Proof.
  intros R F S. unfold node_update_status_cache. split; [exact F|]. cbn [nd_cache nd_chain]. intros v Hv. right.
  apply node_cache_Some in Hv. destruct Hv as (k & s & Hk & Hs & ->). exists k, s. split; [exact Hs|]. split; [exact (R k Hk)|].
  cbv zeta. rewrite S, node_truth_eq, Hk. split; [|reflexivity]. apply in_or_app. right. apply in_node_messages; assumption.
Qed.
Lemma messages_set n c s : node_messages (node_set n c s) = node_messages n.
Proof. reflexivity. Qed.
Lemma verify_ok P H n : regular_keypair n -> node_inv P H n -> collision_free P (H ++ node_messages n) ->
  fst (node_verify_signature_chain P n) = node_truth P n /\
  node_inv P (H ++ node_messages n) (snd (node_verify_signature_chain P n)).
Proof.
  intros R I CF. unfold node_verify_signature_chain. destruct (node_has_valid_cache P n) eqn:V; cbn [fst snd].
  - split; [|eapply node_inv_more; [apply incl_appl, incl_refl|exact I]].
    unfold node_has_valid_cache in V. destruct (nd_cache n) as [v|] eqn:Hv; [|discriminate]. apply andb_prop in V. destruct V as [V1 V2].
    unfold buffer_is_equal in V2. destruct (node_make_status_cache P n) as [w|] eqn:W; [|discriminate]. apply andb_prop in V2. destruct V2 as [_ V2].
    apply beqb_spec in V2. subst w. apply node_cache_Some in W. destruct W as (k & s & Hk & Hs & Ev).
    apply has_valid_cache_inv in V1. destruct V1 as (cv & _ & Hm). apply chain_cache_Some in Hm. destruct Hm as (cs & Hcs & _).
    destruct I as [_ I]. destruct (I v Hv) as [E|(k0 & s0 & Hs0 & G0 & Hin & Ev0)]; [congruence|]. cbv zeta in *.
    assert (E : kp_msg k s (nd_status n) = kp_msg k0 s0 (st_of (chain_truth P (nd_chain n) && kp_truth P (nd_chain n) (Some k0)))).
    { apply CF; [| |congruence]; apply in_or_app; [right; apply in_node_messages; assumption|left; exact Hin]. }
    destruct (R k Hk) as [Fk Dk]. destruct G0 as [Fk0 Dk0].
    apply kp_msg_inj in E; [|exact Fk|exact Fk0]. destruct E as (E1 & E2 & E3). rewrite node_truth_eq, Hk.
    replace (kp_truth P (nd_chain n) (Some k)) with (kp_truth P (nd_chain n) (Some k0)).
    + change (is_valid_st (nd_status n) = (chain_truth P (nd_chain n) && kp_truth P (nd_chain n) (Some k0))%bool). rewrite E3, is_valid_st_of. reflexivity.
    + unfold kp_truth. rewrite Hs, Hs0, E1. apply verify_digest; [|congruence]. rewrite (Dk _ Hs), (Dk0 _ Hs0). reflexivity.
  - destruct I as [F I]. destruct (validate_fresh P _ F) as [F' T]. destruct (validate_fields P (nd_chain n)) as (Er & En & Es).
    pose proof (truth_same P _ _ Er En) as TS.
    destruct (fst (chain_validate P (nd_chain n))) eqn:B; cbn [negb fst snd].
    + assert (KT : keypair_verify_owner P (nd_keypair n) (Some (ch_node (snd (chain_validate P (nd_chain n))))) = kp_truth P (nd_chain n) (nd_keypair n)).
      { unfold keypair_verify_owner, kp_truth. rewrite En. destruct (nd_keypair n); reflexivity. }
      rewrite KT. unfold node_update_status_cache at 1 2. cbn [nd_status nd_chain node_set]. rewrite (Es eq_refl). split.
      * rewrite node_truth_eq, <- T. destruct (kp_truth P (nd_chain n) (nd_keypair n)); reflexivity.
      * rewrite <- (messages_set n (snd (chain_validate P (nd_chain n))) (if kp_truth P (nd_chain n) (nd_keypair n) then S_VALID else S_INVALID)).
        apply node_updated; [exact R|exact F'|]. rewrite node_truth_eq. cbn [nd_chain nd_keypair node_set nd_status]. rewrite TS, <- T. cbn [andb].
        rewrite (kp_truth_same P (nd_chain n) (snd (chain_validate P (nd_chain n)))) by congruence. reflexivity.
    + split; [rewrite node_truth_eq, <- T; reflexivity|].
      rewrite <- (messages_set n (snd (chain_validate P (nd_chain n))) S_INVALID). apply node_updated; [exact R|exact F'|].
      rewrite node_truth_eq. cbn [nd_chain nd_keypair node_set nd_status]. rewrite TS, <- T. reflexivity.
Qed.
Lemma fresh_copy P c c' : chain_copy (Some c) = Some c' -> fresh_inv P c -> fresh_inv P c'.
Proof. intros C I. pose proof (fresh_step P Copy c Logic.I I) as [A _]. cbn [chain_step snd] in A. rewrite C in A. exact A. Qed.
Lemma node_copy_same n n' : node_copy (Some n) = Some n' ->
  chain_copy (Some (nd_chain n)) = Some (nd_chain n') /\ nd_dev_id n' = nd_dev_id n /\ keypair_copy (nd_keypair n) = nd_keypair n' /\
  nd_status n' = nd_status n /\ nd_cache n' = nd_cache n /\ (nd_keypair n <> None -> nd_keypair n' <> None).
Proof.
  unfold node_copy. destruct (buffer_copy (Some (nd_dev_id n))) as [d|] eqn:D; [|discriminate]. apply buffer_copy_Some in D. destruct D as [D _]. apply Some_inj in D. subst d.
  destruct (chain_copy (Some (nd_chain n))) as [c|]; [|discriminate].
  assert (G : forall kp, match nd_cache n with Some _ => match buffer_copy (nd_cache n) with None => None | cache => Some {| nd_dev_id := nd_dev_id n; nd_chain := c; nd_keypair := kp; nd_status := nd_status n; nd_cache := cache |} end
     | None => Some {| nd_dev_id := nd_dev_id n; nd_chain := c; nd_keypair := kp; nd_status := nd_status n; nd_cache := buffer_copy (nd_cache n) |} end = Some n' ->
     c = nd_chain n' /\ nd_dev_id n' = nd_dev_id n /\ kp = nd_keypair n' /\ nd_status n' = nd_status n /\ nd_cache n' = nd_cache n).
  { intros kp. destruct (nd_cache n) as [v|].
    - destruct (buffer_copy (Some v)) as [w|] eqn:W; [|discriminate]. apply buffer_copy_Some in W. destruct W as [W _]. apply Some_inj in W. subst w.
      intros H. apply Some_inj in H. subst n'. auto.
    - cbn [buffer_copy]. intros H. apply Some_inj in H. subst n'. auto. }
  destruct (nd_keypair n) as [k|].
  - destruct (keypair_copy (Some k)) as [k'|]; [|discriminate]. intros H.
    assert (H' := H). destruct (G (Some k')) as (-> & A & B & C & D). { destruct (nd_cache n); [destruct (buffer_copy _)|]; exact H'. }
    repeat split; try assumption. rewrite <- B. discriminate.
  - cbn [keypair_copy]. intros H.
    assert (H' := H). destruct (G None) as (-> & A & B & C & D). { destruct (nd_cache n); [destruct (buffer_copy _)|]; exact H'. }
    repeat split; try assumption. congruence.
Qed.
Lemma node_step_inv P H o n : same_chain_op o -> regular_keypair n -> node_inv P H n -> collision_free P (H ++ node_messages n) ->
  node_inv P (H ++ node_messages n) (snd (node_step P o n)) /\
  (forall b, fst (node_step P o n) = Some b -> b = node_truth P n).
Proof.
  intros SC R I CF. assert (L : incl H (H ++ node_messages n)) by (apply incl_appl, incl_refl).
  destruct o; [| | | |destruct SC]; cbn [node_step].
  - destruct (verify_ok P H n R I CF) as [A B]. destruct (node_verify_signature_chain P n) as [b n']. cbn [fst snd] in *.
    split; [exact B|]. intros b' E. congruence.
  - cbn [fst snd]. split; [|discriminate]. apply (node_inv_more P H); [exact L|]. destruct (validate_fields P (nd_chain n)) as (Er & En & _).
    apply (node_inv_chain P H n); cbn [nd_cache nd_chain]; try assumption; [reflexivity|]. apply (validate_fresh P _ (proj1 I)).
  - cbn [fst snd]. split; [|discriminate]. apply (node_inv_more P H); [exact L|]. destruct (node_copy (Some n)) as [n'|] eqn:C; [|exact I].
    apply node_copy_same in C. destruct C as (Cc & _ & _ & _ & Ce & _). pose proof (fresh_copy P _ _ Cc (proj1 I)) as F'.
    apply chain_copy_same in Cc. destruct Cc as (Cr & Cn & _ & _). apply identity_copy_same in Cr, Cn.
    destruct Cr as (_ & _ & Kr & _), Cn as (_ & _ & Kn & Sn). split; [exact F'|]. intros v Hv. rewrite Ce in Hv.
    destruct Sn as [Sn|Sn]; [|left; exact Sn]. destruct I as [_ I]. destruct (I v Hv) as [E|(k & s & A & B & M)]; [left; congruence|].
    right. exists k, s. split; [exact A|]. split; [exact B|]. rewrite (kp_truth_same P (nd_chain n) (nd_chain n')) by exact Kn.
    replace (chain_truth P (nd_chain n')) with (chain_truth P (nd_chain n)) by (unfold chain_truth, pub_of; rewrite Kr, Kn, Sn; reflexivity). exact M.
  - cbn [fst snd]. split; [|discriminate]. apply (node_inv_more P H); [exact L|].
    unfold node_rotate_keypair. destruct copy; [destruct (keypair_copy (Some k))|]; cbn [snd];
      apply (node_inv_chain P H n); try exact I; try reflexivity; apply I.
Qed.
Lemma node_trace_ok P : forall ops H n, Forall same_chain_op ops -> node_inv P H n ->
  (forall x a, In (x, a) (node_trace P n ops) -> regular_keypair x) ->
  collision_free P (H ++ flat_map (fun xa => node_messages (fst xa)) (node_trace P n ops)) ->
  answers_right (node_truth P) (node_trace P n ops).
Proof.
  induction ops as [|o ops IH]; intros H n SC I R CF.
  - intros x b [].
  - cbn [node_trace] in *. destruct (node_step P o n) as [a n'] eqn:S. cbn [flat_map fst] in CF. rewrite app_assoc in CF. inversion SC; subst.
    assert (Rc : regular_keypair n) by (apply (R n a); left; reflexivity).
    assert (CF1 : collision_free P (H ++ node_messages n)).
    { intros x y Hx Hy. apply CF; apply in_or_app; left; assumption. }
    destruct (node_step_inv P H o n H2 Rc I CF1) as [I' A]. rewrite S in *. cbn [fst snd] in *.
    intros x b [E|Hin].
    + injection E as <- ->. apply A. reflexivity.
    + apply (IH (H ++ node_messages n)%list n' H3 I'); [|exact CF|exact Hin]. intros x0 a0 H0. apply (R x0 a0). right. exact H0.
Qed.
Lemma node_history P d root node kp c n ops : chain_create (Some root) (Some node) = Some c -> node_create (Some d) (Some c) kp = Some n ->
  Forall same_chain_op ops ->
  (forall x a, In (x, a) (node_trace P n ops) -> regular_keypair x) ->
  collision_free P (flat_map (fun xa => node_messages (fst xa)) (node_trace P n ops)) ->
  answers_right (node_truth P) (node_trace P n ops).
Proof.
  intros C N SC R CF. apply (node_trace_ok P ops [] n); [exact SC| |exact R|exact CF].
  cbn [node_create] in N. apply Some_inj in N. subst n. split; cbn [nd_chain nd_cache]; [|discriminate].
  cbn [chain_create] in C. apply Some_inj in C. subst c. intros H. destruct (H eq_refl).
Qed.
