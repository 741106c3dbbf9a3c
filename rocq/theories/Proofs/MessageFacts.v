(* Payloads and key exchanges. *)
From Verif.Base Require Import Bytes Monad.
From Verif.Model Require Import Buffer Cipher Ecdsa Kdf Prims Engine Proto Identity Node EcdhCipher Payload Exchange Packet.
From Verif.Spec Require Import BufferSpec CodecSpec EngineSpec IdentitySpec MessageSpec.
From Verif.Proofs Require Import BytesFacts BufferFacts BufferProps CodecFacts ProtoFacts EngineFacts IdentityFacts KeysFacts.
From Coq Require Import ZifyBool ZifyNat ZifyN.
Ltac Zify.zify_post_hook ::= Z.div_mod_to_equations.
Local Open Scope N_scope.

(* --- payloads *)
Lemma pb_eph_roundtrip m : pe_ttl m < two64 -> (forall x, pe_bor m = Some x -> x < two64) -> pb_eph_unpack (pb_eph_pack m) = Some m.
Proof.
  intros A B. unfold pb_eph_unpack, pb_eph_pack. rewrite <- (app_nil_r (f_var_opt 2 _)). rewrite scan_var by (lia || assumption). rewrite scan_var_opt by (lia || assumption). rewrite scan_nil.
  destruct m as [t o]. cbn [pe_ttl pe_bor] in *. assert (E : u64 t = t) by (apply N.mod_small, A).
  destruct o as [o|]; fields; rewrite E; [|reflexivity]. assert (F : u64 o = o) by (apply N.mod_small, B; reflexivity). rewrite F. reflexivity.
Qed.
Lemma pb_meta_roundtrip m : pe_ttl (pm_eph m) < two64 -> (forall x, pe_bor (pm_eph m) = Some x -> x < two64) -> small (pm_tag m) ->
  (forall x, pm_type m = Some x -> x < two32) -> pb_meta_unpack (pb_meta_pack m) = Some m.
Proof.
  intros A B C D. unfold pb_meta_unpack, pb_meta_pack. rewrite <- (app_nil_r (f_var_opt 3 _)).
  assert (L : blen (pb_eph_pack (pm_eph m)) < two32).
  { unfold pb_eph_pack. rewrite blen_app. pose proof (f_var_size 1 (pe_ttl (pm_eph m))). pose proof (f_var_opt_size 2 (pe_bor (pm_eph m))). unfold two32. lia. }
  rewrite scan_len by (lia || assumption). rewrite scan_len_opt by (lia || assumption).
  rewrite scan_var_opt; [|lia|intros x Hx; apply D in Hx; unfold two32, two64 in *; lia]. rewrite scan_nil.
  pose proof (pb_eph_roundtrip _ A B) as R. destruct m as [e t c]. cbn [pm_eph pm_tag pm_type] in *.
  assert (E : forall x, c = Some x -> u32 x = x) by (intros x H; apply N.mod_small, D, H).
  destruct t as [t|], c as [c|]; fields; rewrite R, ?(E c eq_refl); reflexivity.
Qed.
Lemma pb_payload_roundtrip m : pb_meta_unpack (pb_meta_pack (pp_meta m)) = Some (pp_meta m) -> blen (pb_meta_pack (pp_meta m)) < two32 -> blen (pp_body m) < two32 ->
  pb_payload_unpack (pb_payload_pack m) = Some m.
Proof.
  intros R A B. unfold pb_payload_unpack, pb_payload_pack. rewrite <- (app_nil_r (f_len 4 _)). rewrite !scan_len by (lia || assumption). rewrite scan_nil.
  destruct m as [e b]. cbn [pp_meta pp_body] in *. fields. rewrite R. reflexivity.
Qed.
Lemma payload_parse_ok p : good_payload p -> payload_create_from_buffer (Some (pb_payload_pack (payload_to_proto p))) = Some p.
Proof.
  intros (A & B & C & D & E). destruct p as [[ttl bor tag ty] body]. cbn [py_meta py_body me_ttl me_bor me_tag me_type] in *.
  unfold payload_create_from_buffer. rewrite pb_payload_roundtrip.
  2:{ apply pb_meta_roundtrip; cbn [payload_to_proto py_meta py_body me_ttl me_bor me_tag me_type pp_meta pm_eph pm_tag pm_type pe_ttl pe_bor].
      - exact A.
      - intros x. destruct (bor =? 0); [discriminate|]. intros H. apply Some_inj in H. subst x. exact B.
      - intros x H. apply Some_inj in H. subst x. unfold within_limit, library_limit, two32 in *. lia.
      - intros x H. apply Some_inj in H. subst x. unfold two32. lia. }
  2:{ unfold pb_meta_pack, pb_eph_pack. rewrite !blen_app. cbn [payload_to_proto py_meta py_body me_ttl me_bor me_tag me_type pp_meta pm_eph pm_tag pm_type pe_ttl pe_bor].
      match goal with |- context [f_len 1 ?x] => pose proof (f_len_size 1 x) as L1; rewrite blen_app in L1 end.
      match goal with |- context [f_var 1 ?x] => pose proof (f_var_size 1 x) end. match goal with |- context [f_var_opt 2 ?x] => pose proof (f_var_opt_size 2 x) end.
      pose proof (f_len_opt_size 2 (Some tag)). pose proof (f_var_opt_size 3 (Some ty)). cbn [oblen] in *. unfold within_limit, library_limit, two32 in *. lia. }
  2:{ cbn. unfold within_limit, library_limit, two32 in *. lia. }
  cbn [payload_to_proto py_meta py_body me_ttl me_bor me_tag me_type pp_meta pp_body pm_eph pm_tag pm_type pe_ttl pe_bor obytes].
  rewrite (create_limit tag D). unfold packet_meta_create. rewrite (create_limit body E). cbn [payload_create].
  rewrite N.mod_small by exact C. destruct (N.eqb_spec bor 0) as [->|]; reflexivity.
Qed.
Lemma payload_serialize_eq p : payload_serialize (Some p) = pack_buffer (pb_payload_pack (payload_to_proto p)).
Proof. reflexivity. Qed.
Lemma payload_roundtrip p b : good_payload p -> payload_serialize (Some p) = Some b -> payload_create_from_buffer (Some b) = Some p.
Proof. intros G H. rewrite payload_serialize_eq in H. apply pack_buffer_Some in H. destruct H as [-> _]. apply payload_parse_ok, G. Qed.
Lemma payload_nonempty p b : payload_serialize (Some p) = Some b -> b <> [].
Proof. rewrite payload_serialize_eq. intros H. apply pack_buffer_Some in H. destruct H as [-> L]. intros E. rewrite E in L. unfold within_limit in L. rewrite blen_nil in L. lia. Qed.
Lemma payload_serialize_ok p : good_payload p -> blen (me_tag (py_meta p)) + blen (py_body p) + 200 <= library_limit -> exists b, payload_serialize (Some p) = Some b.
Proof.
  intros G L. eexists. rewrite payload_serialize_eq. apply pack_buffer_ok.
  assert (NE : 0 < blen (pb_payload_pack (payload_to_proto p))).
  { apply nonempty_blen. unfold pb_payload_pack. destruct (f_len 3 _) eqn:E; [destruct (f_len_nonempty _ _ E)|discriminate]. }
  split; [lia|]. unfold pb_payload_pack. rewrite blen_app. destruct p as [[ttl bor tag ty] body]. cbn [payload_to_proto py_meta py_body me_ttl me_bor me_tag me_type pp_meta pp_body] in *.
  pose proof (f_len_size 4 body). match goal with |- context [f_len 3 ?x] => pose proof (f_len_size 3 x) as L3; unfold pb_meta_pack in L3 at 2; rewrite !blen_app in L3; cbn [pm_eph pm_tag pm_type] in L3 end.
  pose proof (f_len_opt_size 2 (Some tag)). pose proof (f_var_opt_size 3 (Some ty)). cbn [oblen] in *.
  match type of L3 with context [f_len 1 ?x] => pose proof (f_len_size 1 x) as L1; unfold pb_eph_pack in L1 at 2; rewrite blen_app in L1; cbn [pe_ttl pe_bor] in L1 end.
  match type of L1 with context [f_var 1 ?x] => pose proof (f_var_size 1 x) end. match type of L1 with context [f_var_opt 2 ?x] => pose proof (f_var_opt_size 2 x) end. lia.
Qed.

(* --- one exchange *)
Lemma equal_beqb a b : buffer_is_equal (Some a) (Some b) = beqb a b.
Proof.
  unfold buffer_is_equal. destruct (beqb a b) eqn:E; [|apply andb_false_r]. apply beqb_spec in E. subst b. rewrite N.eqb_refl. reflexivity.
Qed.
Lemma result_wire_size r : good_result r -> 13 <= blen (result_wire r).
Proof.
  intros G. rewrite result_wire_eq by exact G. destruct G as [G _]. rewrite blen_cons, !blen_app. destruct (cr_cipher r); destruct G as [L _]; apply blen_nat in L; lia.
Qed.
Lemma pb_exchange_roundtrip m : blen (px_id m) < two32 -> px_key_id m < two64 -> blen (px_data m) < two32 -> pb_exchange_unpack (pb_exchange_pack m) = Some m.
Proof.
  intros A B C. unfold pb_exchange_unpack, pb_exchange_pack. rewrite <- (app_nil_r (f_len 3 _)).
  rewrite scan_len by (lia || assumption). rewrite scan_var by (lia || assumption). rewrite scan_len by (lia || assumption). rewrite scan_nil.
  destruct m as [i k d]. cbn [px_id px_key_id px_data] in *. assert (E : u64 k = k) by (apply N.mod_small, B). fields. rewrite E. reflexivity.
Qed.
Definition exchange_msg (x : key_exchange) : pb_exchange := {| px_id := kx_id x; px_key_id := kx_key_id x; px_data := result_wire (kx_text x) |}.
Lemma exchange_to_proto x m : good_exchange x -> key_exchange_to_proto (Some x) = Some m -> m = exchange_msg x /\ within_limit (blen (result_wire (kx_text x))).
Proof.
  intros (_ & _ & G). unfold key_exchange_to_proto. destruct (cipher_result_serialize (Some (kx_text x))) as [d|] eqn:E; [|discriminate]. intros H. apply Some_inj in H. subst m.
  destruct (N.le_gt_cases (blen (result_wire (kx_text x))) library_limit) as [L|L]; [|rewrite (result_too_big _ L G) in E; discriminate].
  assert (W : within_limit (blen (result_wire (kx_text x)))) by (pose proof (result_wire_size _ G); unfold within_limit; lia).
  rewrite (result_serialize_ok _ G W) in E. apply Some_inj in E. subst d. split; [reflexivity|exact W].
Qed.
Lemma exchange_from_msg x : good_exchange x -> blen (kx_id x) <= library_limit -> within_limit (blen (result_wire (kx_text x))) ->
  key_exchange_create_with_proto (exchange_msg x) = Val x.
Proof.
  intros (I & _ & G) L W. unfold key_exchange_create_with_proto. cbn [exchange_msg px_data px_id px_key_id].
  pose proof (nonempty_blen _ I). replace (_ || _) with false by (unfold within_limit in W; lia).
  rewrite (create_limit _ W), (result_parse_ok _ G W). cbn [rbind]. rewrite create_limit by (unfold within_limit; lia). destruct x; reflexivity.
Qed.
Lemma key_exchange_copy_ok x : good_exchange x -> exchange_fits x -> key_exchange_copy (Some x) = Some x.
Proof.
  intros (I & _ & G) [L W]. unfold key_exchange_copy. rewrite (result_copy_ok _ G W). pose proof (nonempty_blen _ I). rewrite copy_limit by (unfold within_limit; lia). destruct x; reflexivity.
Qed.
Lemma key_exchange_copy_inv x y : key_exchange_copy (Some x) = Some y -> kx_id y = kx_id x /\ kx_key_id y = kx_key_id x.
Proof.
  unfold key_exchange_copy. destruct (cipher_result_copy _); [|discriminate]. destruct (buffer_copy (Some (kx_id x))) as [i|] eqn:E; [|discriminate].
  apply buffer_copy_Some in E. destruct E as [E _]. apply Some_inj in E. intros H. apply Some_inj in H. subst y. cbn. split; congruence.
Qed.

(* --- sets *)
Lemma items_to_proto l ms : Forall good_exchange l -> exchange_items_to_proto (map Some l) = Some ms -> ms = map exchange_msg l /\ Forall (fun x => within_limit (blen (result_wire (kx_text x)))) l.
Proof.
  revert ms. induction l as [|x l IH]; intros ms G H; [apply Some_inj in H; subst ms; split; [reflexivity|constructor]|].
  inversion G as [|? ? Gx Gl]; subst. cbn [map exchange_items_to_proto] in H. destruct (key_exchange_to_proto (Some x)) as [m|] eqn:E; [|discriminate].
  destruct (exchange_items_to_proto (map Some l)) as [r|] eqn:F; [|discriminate]. apply Some_inj in H. subst ms. destruct (exchange_to_proto x m Gx E) as [-> W].
  destruct (IH r Gl eq_refl) as [-> WL]. split; [reflexivity|constructor; assumption].
Qed.
Lemma items_from_proto l : Forall good_exchange l -> Forall exchange_fits l -> exchange_items_from_proto (map exchange_msg l) = Val (map Some l).
Proof.
  induction l as [|x l IH]; intros G F; [reflexivity|]. inversion G; inversion F; subst. cbn [map exchange_items_from_proto].
  rewrite exchange_from_msg by (apply H5 || assumption). cbn [rbind]. rewrite IH by assumption. reflexivity.
Qed.
Lemma scan_items l : forall rest, Forall (fun x => blen (pb_exchange_pack x) < two32) l ->
  scan (flat_map (fun x => f_len 2 (pb_exchange_pack x)) l ++ rest) =
  match scan rest with Some fs => Some (map (fun x => (2, WLen (pb_exchange_pack x))) l ++ fs)%list | None => None end.
Proof.
  induction l as [|x l IH]; intros rest F; [cbn [flat_map map app]; destruct (scan rest); reflexivity|]. inversion F; subst. cbn [flat_map map]. rewrite <- app_assoc.
  rewrite scan_len by (lia || assumption). rewrite IH by assumption. destruct (scan rest); reflexivity.
Qed.
Lemma get_bytes_items l acc : get_bytes 1 (map (fun x => (2, WLen (pb_exchange_pack x))) l) acc = Some acc.
Proof. induction l as [|x l IH]; [reflexivity|]. cbn [map get_bytes]. change (2 =? 1) with false. exact IH. Qed.
Lemma get_rep_items l : Forall (fun x => pb_exchange_unpack (pb_exchange_pack x) = Some x) l -> get_rep 2 pb_exchange_unpack (map (fun x => (2, WLen (pb_exchange_pack x))) l) = Some l.
Proof.
  induction l as [|x l IH]; intros F; [reflexivity|]. inversion F as [|? ? E Fl]; subst. cbn [map get_rep]. change (2 =? 2) with true. cbn match. rewrite E, (IH Fl). reflexivity.
Qed.
Lemma pb_set_roundtrip m : blen (py_sender m) < two32 -> Forall (fun x => blen (pb_exchange_pack x) < two32) (py_exchanges m) ->
  Forall (fun x => pb_exchange_unpack (pb_exchange_pack x) = Some x) (py_exchanges m) -> pb_exchange_set_unpack (pb_exchange_set_pack m) = Some m.
Proof.
  intros A B C. unfold pb_exchange_set_unpack, pb_exchange_set_pack. rewrite scan_len by (lia || assumption).
  rewrite <- (app_nil_r (flat_map _ _)), (scan_items _ [] B), scan_nil, app_nil_r. cbn [get_bytes get_rep]. change (1 =? 1) with true. change (1 =? 2) with false. cbn match.
  rewrite get_bytes_items, (get_rep_items _ C). destruct m; reflexivity.
Qed.
Lemma blen_flat_map {A} (f : A -> bytes) l x : In x l -> blen (f x) <= blen (flat_map f l).
Proof.
  induction l as [|y l IH]; intros H; [destruct H|]. cbn [flat_map]. rewrite blen_app. destruct H as [->|H]; [lia|]. specialize (IH H). lia.
Qed.
Lemma blen_flat_map_count {A} (f : A -> bytes) n l : (forall x, In x l -> n <= blen (f x)) -> n * N.of_nat (length l) <= blen (flat_map f l).
Proof.
  induction l as [|y l IH]; intros H; [cbn; lia|]. cbn [flat_map length]. rewrite blen_app. specialize (IH (fun x I => H x (or_intror I))). pose proof (H y (or_introl eq_refl)). lia.
Qed.
Lemma exchange_set_wire P s l b : importable P (xs_sender s) -> full_set s l -> Forall good_exchange l -> exchange_set_serialize (Some s) = Some b ->
  b <> [] /\ l <> [] /\ Forall exchange_fits l /\ exchange_set_create_from_buffer P (Some b) = Val {| xs_sender := public_key (xs_sender s); xs_items := xs_items s |}.
Proof.
  intros IM FS G H. unfold exchange_set_serialize, exchange_set_to_proto in H. rewrite FS in H.
  assert (NE : l <> []) by (intros ->; discriminate).
  assert (H' : match exchange_items_to_proto (map Some l) with Some r => pack_buffer (pb_exchange_set_pack {| py_sender := ek_pub (xs_sender s); py_exchanges := r |}) | None => None end = Some b).
  { destruct l as [|x0 l0]; [congruence|]. cbn [map] in H |- *. destruct (exchange_items_to_proto (xs_items s)) as [r|] eqn:R; rewrite FS in R; cbn [map] in R; rewrite R; [exact H|discriminate]. }
  clear H. rename H' into H. destruct (exchange_items_to_proto (map Some l)) as [ms|] eqn:E; [|discriminate].
  destruct (items_to_proto l ms G E) as [-> W]. apply pack_buffer_Some in H. destruct H as [-> L].
  set (m := {| py_sender := ek_pub (xs_sender s); py_exchanges := map exchange_msg l |}) in *. pose proof L as L'. unfold pb_exchange_set_pack in L'. rewrite blen_app in L'.
  assert (SE : forall x, In x (py_exchanges m) -> blen (pb_exchange_pack x) <= library_limit).
  { intros x Hx. pose proof (blen_flat_map (fun x => f_len 2 (pb_exchange_pack x)) _ x Hx). pose proof (blen_f_len 2 (pb_exchange_pack x)). unfold within_limit in L'. lia. }
  assert (FI : Forall exchange_fits l).
  { apply Forall_forall. intros x Hx. rewrite Forall_forall in W. split; [|exact (W x Hx)].
    specialize (SE (exchange_msg x) (in_map _ _ _ Hx)). unfold pb_exchange_pack in SE. rewrite !blen_app in SE. pose proof (blen_f_len 1 (kx_id x)). cbn [exchange_msg px_id] in SE. lia. }
  pose proof (blen_f_len 1 (ek_pub (xs_sender s))) as LS. cbn [py_sender m] in L'.
  assert (CNT : 8 * N.of_nat (length l) <= library_limit).
  { pose proof (blen_flat_map_count (fun x => f_len 2 (pb_exchange_pack x)) 8 (py_exchanges m)) as K. cbn [m py_exchanges] in K, L'. rewrite map_length in K.
    assert (Q : forall x, In x (map exchange_msg l) -> 8 <= blen (f_len 2 (pb_exchange_pack x))).
    { intros x Hx. apply in_map_iff in Hx. destruct Hx as (y & <- & Hy). rewrite Forall_forall in G. destruct (G y Hy) as (_ & _ & Gr). pose proof (result_wire_size _ Gr).
      pose proof (blen_f_len 2 (pb_exchange_pack (exchange_msg y))). unfold pb_exchange_pack in H0 at 1. rewrite !blen_app in H0. pose proof (blen_f_len 3 (px_data (exchange_msg y))). cbn [exchange_msg px_data] in *. lia. }
    specialize (K Q). unfold within_limit in L'. lia. }
  split; [intros Z; rewrite Z in L; unfold within_limit in L; rewrite blen_nil in L; lia|]. split; [exact NE|]. split; [exact FI|].
  unfold exchange_set_create_from_buffer. rewrite pb_set_roundtrip.
  - cbn [lift rbind]. unfold exchange_set_create_with_proto. cbn [m py_exchanges py_sender]. rewrite map_length. cbv zeta.
    assert (N0 : 0 < N.of_nat (length l)) by (destruct l; [congruence|cbn [length]; lia]).
    assert (S0 : 0 < blen (ek_pub (xs_sender s))).
    { unfold importable, ec_key_import, evp_public_key_from_buffer in IM. destruct (ek_pub (xs_sender s)) as [|c r]; [discriminate|rewrite blen_cons; lia]. }
    replace (_ || _) with false by (unfold INT32_MAX, library_limit in *; lia).
    replace (negb _) with false. 2:{ unfold exchange_array_ok, size_ok, MAX_BUFFER_SIZE, library_limit, two64 in *. lia. }
    rewrite (items_from_proto l G FI). cbn [rbind]. rewrite IM. cbn [lift rbind exchange_set_create]. rewrite FS. reflexivity.
  - cbn [m py_sender]. unfold within_limit, library_limit, two32 in *. lia.
  - apply Forall_forall. intros x Hx. specialize (SE x Hx). unfold library_limit, two32 in *. lia.
  - apply Forall_forall. intros x Hx. cbn [m py_exchanges] in Hx. apply in_map_iff in Hx. destruct Hx as (y & <- & Hy). rewrite Forall_forall in G, FI. destruct (G y Hy) as (_ & K & _). destruct (FI y Hy) as [F1 F2].
    apply pb_exchange_roundtrip; cbn [exchange_msg px_id px_key_id px_data]; [unfold library_limit, two32 in *; lia|exact K|unfold within_limit, library_limit, two32 in *; lia].
Qed.
Lemma exchange_find_first i l x : first_with i l x -> exchange_find (map Some l) i = lift (key_exchange_copy (Some x)).
Proof.
  intros (l1 & l2 & -> & E & D). induction l1 as [|y l1 IH].
  - cbn [app map exchange_find]. rewrite equal_beqb, E, beqb_refl. reflexivity.
  - cbn [app map exchange_find]. rewrite equal_beqb. destruct (beqb i (kx_id y)) eqn:B.
    + apply beqb_spec in B. destruct (D y (or_introl eq_refl)). congruence.
    + apply IH. intros z Hz. apply D. right. exact Hz.
Qed.
Lemma exchange_find_none i l : (forall y, In y l -> kx_id y <> i) -> exchange_find (map Some l) i = Null.
Proof.
  induction l as [|y l IH]; intros D; [reflexivity|]. cbn [map exchange_find]. rewrite equal_beqb. destruct (beqb i (kx_id y)) eqn:B.
  - apply beqb_spec in B. destruct (D y (or_introl eq_refl)). congruence.
  - apply IH. intros z Hz. apply D. right. exact Hz.
Qed.
Lemma find_first_exists i l : (exists x, first_with i l x) \/ (forall y, In y l -> kx_id y <> i).
Proof.
  induction l as [|y l IH]; [right; intros y []|]. destruct (beqb (kx_id y) i) eqn:B.
  - apply beqb_spec in B. left. exists y, [], l. split; [reflexivity|]. split; [exact B|intros z []].
  - assert (N : kx_id y <> i) by (intros E; rewrite E, beqb_refl in B; discriminate). destruct IH as [(x & l1 & l2 & -> & E & D)|D].
    + left. exists x, (y :: l1), l2. split; [reflexivity|]. split; [exact E|]. intros z [<-|Hz]; [exact N|exact (D z Hz)].
    + right. intros z [<-|Hz]; [exact N|exact (D z Hz)].
Qed.
Lemma find_Val i l x : exchange_find (map Some l) i = Val x -> exists y, first_with i l y /\ key_exchange_copy (Some y) = Some x.
Proof.
  intros H. destruct (find_first_exists i l) as [(y & F)|N].
  - rewrite (exchange_find_first _ _ _ F) in H. apply lift_Val' in H. eauto.
  - rewrite (exchange_find_none _ _ N) in H. discriminate.
Qed.
Lemma parsed_items ms l : exchange_items_from_proto ms = Val l -> exists xs, l = map Some xs /\ Forall (fun x => kx_id x <> [] /\ good_result (kx_text x)) xs.
Proof.
  revert l. induction ms as [|m ms IH]; intros l H; cbn [exchange_items_from_proto] in H; [apply Val_inj in H; subst l; exists []; split; [reflexivity|constructor]|].
  apply rbind_Val in H. destruct H as (x & Hx & H). apply rbind_Val in H. destruct H as (r & Hr & H). apply Val_inj in H. subst l. destruct (IH r Hr) as (xs & -> & F).
  exists (x :: xs). split; [reflexivity|]. constructor; [|exact F]. unfold key_exchange_create_with_proto in Hx. destruct (_ || _) eqn:Z; [discriminate|].
  apply rbind_Val in Hx. destruct Hx as (t & Ht & Hx). apply rbind_Val in Hx. destruct Hx as (i & Hi & Hx). apply lift_Val' in Hi, Hx. apply buffer_create_Some in Hi. destruct Hi as [-> _].
  apply Some_inj in Hx. subst x. cbn [kx_id kx_text]. apply result_parse_inv in Ht. split; [intros E; rewrite E in Z; rewrite orb_true_r in Z; discriminate|apply Ht].
Qed.
Lemma parsed_exchange_copy m x : key_exchange_create_with_proto m = Val x -> key_exchange_copy (Some x) = Some x.
Proof.
  unfold key_exchange_create_with_proto. destruct (_ || _); [discriminate|]. intros H. apply rbind_Val in H. destruct H as (t & Ht & H). apply rbind_Val in H. destruct H as (i & Hi & H).
  apply lift_Val' in Hi, H. apply Some_inj in H. subst x. apply buffer_create_Some in Hi. destruct Hi as [-> Hi]. apply result_parse_inv in Ht. destruct Ht as (G & _ & W).
  unfold key_exchange_copy. cbn [kx_text kx_id kx_key_id]. rewrite (result_copy_ok _ G W), copy_limit by (apply size_ok_limit, Hi). reflexivity.
Qed.
Lemma parsed_items_copy ms : forall l, exchange_items_from_proto ms = Val (map Some l) -> Forall (fun x => key_exchange_copy (Some x) = Some x) l.
Proof.
  induction ms as [|m ms IH]; intros l H; cbn [exchange_items_from_proto] in H.
  - apply Val_inj in H. destruct l; [constructor|discriminate].
  - apply rbind_Val in H. destruct H as (x & Hx & H). apply rbind_Val in H. destruct H as (r & Hr & H). apply Val_inj in H. destruct l as [|y l]; [discriminate|]. cbn [map] in H.
    injection H as -> ->. constructor; [exact (parsed_exchange_copy _ _ Hx)|apply IH, Hr].
Qed.
