(* Rules for the functions of Model/HeapSending.v. *)
From Verif.Base Require Import Bytes Monad.
From Verif.Model Require Import Buffer Cipher Ecdsa Kdf Prims Engine Keys Identity Node EcdhCipher Exchange Payload Packet Ctx Proto Heap HeapObjects HeapMessages HeapParse HeapWrite HeapEngine HeapProtocol HeapGenerate HeapContext HeapSending.
From Verif.Spec Require Import HeapSpec HeapObjectSpec BufferSpec CopySpec HeapParseSpec HeapWriteSpec HeapEngineSpec HeapProtocolSpec HeapGenerateSpec HeapContextSpec HeapSendingSpec.
From Verif.Spec Require Import CodecSpec KeysSpec IdentitySpec.
From Verif.Proofs Require Import BytesFacts BufferFacts IdentityFacts IdentityProps KeysFacts ParserFacts SafetyFacts CtxSafety PacketFacts EncodeFacts HeapFacts HeapObjectFacts HeapMessageFacts HeapCtxFacts HeapParseFacts HeapWriteFacts HeapEngineFacts HeapKdfFacts HeapProtocolFacts HeapExchangeFacts HeapPacketFacts HeapReadingFacts HeapGenerateFacts HeapContextFacts HeapStreamFacts.
From Coq Require Import Permutation ZifyBool ZifyNat ZifyN.
Local Open Scope N_scope.

(* arguments that are there as long as the heap [h0] and the blocks [X] are *)
Definition stable (secret : bytes -> Prop) (W : Prop) (h0 : heap) (X : list cell) (args : list (list cell)) : Prop :=
  forall Y h, ext secret W h0 (Y ++ X) h -> all_in_memory h args.
Lemma stable_source secret W h0 X args : all_in_memory h0 args -> stable secret W h0 X args.
Proof.
  intros M Y h E. unfold all_in_memory in *. rewrite Forall_forall in *. intros a I. eapply source_in_memory; [exact E|exact (M a I)].
Qed.
Lemma stable_more secret W h0 X Z args : stable secret W h0 X args -> stable secret W h0 (Z ++ X) args.
Proof. intros S Y h E. apply (S (Y ++ Z)%list). rewrite <- app_assoc. exact E. Qed.
Lemma stable_sub secret W h0 X args args' : incl args' args -> stable secret W h0 X args -> stable secret W h0 X args'.
Proof. intros I S Y h E. specialize (S Y h E). unfold all_in_memory in *. rewrite Forall_forall in *. auto. Qed.
Lemma stable_app secret W h0 X args args' : stable secret W h0 X args -> stable secret W h0 X args' -> stable secret W h0 X (args ++ args').
Proof. intros S S' Y h E. apply Forall_app. split; [exact (S Y h E)|exact (S' Y h E)]. Qed.
Lemma stable_made secret W h0 X c : stable secret W h0 (c ++ X) [c].
Proof.
  intros Y h E. apply Forall_cons; [|apply Forall_nil]. apply (ext_perm _ _ _ _ (c ++ Y ++ X)%list) in E; [|apply HeapFacts.perm_swap]. exact (made_in_memory _ _ _ _ _ _ E).
Qed.
Lemma stable_perm secret W h0 X Z args : Permutation X Z -> stable secret W h0 X args -> stable secret W h0 Z args.
Proof. intros PP S Y h E. apply (S Y). eapply ext_perm; [|exact E]. apply Permutation_app_head, Permutation_sym, PP. Qed.
(* such an argument is apart from everything else *)
Lemma ext_forget secret W h0 X Y h : ext secret W h0 (Y ++ X) h -> ext secret W h0 X (without h Y).
Proof.
  intros (L & B & (O & N & C & D & Wp)). exists L. split; [exact B|].
  assert (PP : Permutation (L ++ Y ++ X) (Y ++ L ++ X)) by apply HeapFacts.perm_swap.
  pose proof (Permutation_NoDup (Permutation_map fst PP) N) as N'. rewrite map_app in N'. change (NoDup (map fst Y ++ map fst (L ++ X))) in N'.
  assert (AP : forall b, In b (map fst (L ++ X)) -> ~ In b (map fst Y)).
  { intros b I J. apply in_split in J. destruct J as (y1 & y2 & J). rewrite J, <- app_assoc in N'. cbn [app] in N'. apply NoDup_remove_2 in N'. apply N'. rewrite !in_app_iff. right. right. exact I. }
  split; [|split; [|split; [|split]]].
  - intros b I. cbn. destruct (existsb _ _); [reflexivity|exact (O b I)].
  - exact (nodup_r _ _ N').
  - intros b c I. assert (I' : In (b, c) (L ++ Y ++ X)) by (rewrite !in_app_iff in *; tauto). destruct (C b c I') as (C1 & C2). split; [|exact C2]. rewrite without_out; [exact C1|]. apply AP, in_map_iff. exists (b, c). split; [reflexivity|exact I].
  - intros b I. destruct (in_dec Nat.eq_dec b (map fst Y)) as [J|J].
    + rewrite without_in by exact J. apply in_map_iff in J. destruct J as ((b' & c) & <- & J). cbn [fst] in *. symmetry. apply (C b' c). rewrite !in_app_iff. right. left. exact J.
    + rewrite without_out by exact J. apply D. rewrite !map_app, !in_app_iff in *. tauto.
  - exact Wp.
Qed.
Lemma nodup_apart {A} (l m : list A) : NoDup l -> NoDup m -> (forall x, In x l -> ~ In x m) -> NoDup (l ++ m).
Proof.
  induction l as [|x l IH]; intros N M D; [exact M|]. inversion_clear N. cbn [app]. constructor.
  - rewrite in_app_iff. intros [I|I]; [contradiction|exact (D x (or_introl eq_refl) I)].
  - apply IH; [assumption|exact M|]. intros y I. exact (D y (or_intror I)).
Qed.
Lemma stable_with secret W h0 X Y c h : stable secret W h0 X [c] -> ext secret W h0 (Y ++ X) h -> in_memory h (c ++ Y).
Proof.
  intros ST E. pose proof (ST _ _ E) as (M & _)%all_cons. pose proof (made_in_memory _ _ _ _ _ _ E) as MY. pose proof (ext_forget _ _ _ _ _ _ E) as E'.
  pose proof (ST [] _ E') as (M' & _)%all_cons. clear E'. 
  split.
  - rewrite map_app. apply nodup_apart; [exact (proj1 M)|exact (proj1 MY)|].
    intros b I J. apply in_map_iff in I. destruct I as ((b' & d) & <- & I). cbn [fst] in *. pose proof (proj2 M' _ _ I) as G. rewrite without_in in G by exact J. discriminate G.
  - intros b d I. apply in_app_iff in I. destruct I as [I|I]; [exact (proj2 M _ _ I)|exact (proj2 MY _ _ I)].
Qed.
Ltac each M := repeat match type of M with
  | all_in_memory _ (_ :: _) => let M1 := fresh "M" in apply all_cons in M; destruct M as (M1 & M)
  | Forall _ (_ :: _) => let M1 := fresh "M" in apply all_cons in M; destruct M as (M1 & M)
  end.
(* the arguments in the present heap *)
Ltac present S := at_heap ltac:(fun E => let E' := fresh in let M := fresh "M" in pose proof E as E'; rewrite ?app_assoc in E'; first [pose proof (S _ _ E') as M|pose proof (S [] _ E') as M]; clear E'; each M).

Section sending.
  Context (P : prims).

  (* --- the draws --- *)
  Lemma nonce_draw c s : mtry (crypto_random P (iv_len c)) s = (Val (p_rand P s (iv_len c)), S s).
  Proof. unfold mtry, crypto_random. replace (INT_MAX <? iv_len c) with false by (destruct c; reflexivity).
    replace (negb (size_ok (iv_len c))) with false by (destruct c; reflexivity). destruct (p_rand P s (iv_len c)); reflexivity. Qed.
  Lemma encrypt_draw p a k s r : fst (aes256_encrypt P p a k None s) = Val r -> snd (aes256_encrypt P p a k None s) = S s.
  Proof.
    unfold aes256_encrypt. destruct p as [p|]; [|discriminate]. destruct k as [k|]; [|discriminate]. cbv zeta. destruct (match a with Some _ => _ | None => _ end); [discriminate|].
    destruct (_ || _); [discriminate|]. unfold mbind. pose proof (nonce_draw (ck_cipher k) s) as D. rewrite D. destruct (p_rand P s _) as [v|]; [|discriminate].
    destruct (negb _); [discriminate|]. destruct (_ <? _); [discriminate|]. destruct (_ <? _); [discriminate|]. destruct (ck_cipher k); reflexivity.
  Qed.
  Lemma mbind_lift {A B} (o : option A) (k : A -> M B) s : mbind (mlift o) k s = match o with Some x => k x s | None => (Null, s) end.
  Proof. unfold mbind, mlift, mres. destruct o; reflexivity. Qed.
  Lemma set_draw x k s r : fst (exchange_set_encrypt P x k s) = Val r -> snd (exchange_set_encrypt P x k s) = S s.
  Proof. unfold exchange_set_encrypt. destruct x as [x|]; [|discriminate]. destruct k as [k|]; [|discriminate]. rewrite mbind_lift. destruct (exchange_set_serialize _); [apply encrypt_draw|discriminate]. Qed.
  Lemma payload_draw x k s r : fst (payload_encrypt P x k s) = Val r -> snd (payload_encrypt P x k s) = S s.
  Proof. unfold payload_encrypt. destruct x as [x|]; [|discriminate]. destruct k as [k|]; [|discriminate]. rewrite mbind_lift. destruct (payload_serialize _); [apply encrypt_draw|discriminate]. Qed.
  Lemma exchange_draw se n k pk psk v s x : fst (exchange_create_with_packet_key P se n k pk psk v s) = Val x -> snd (exchange_create_with_packet_key P se n k pk psk v s) = S s.
  Proof.
    unfold exchange_create_with_packet_key. destruct se as [se|]; [|discriminate]. destruct n as [n|]; [|discriminate]. destruct k as [k|]; [|discriminate]. destruct pk as [pk|]; [|discriminate].
    rewrite mbind_lift. destruct (cipher_key_serialize _) as [d|]; [|discriminate]. unfold exchange_create_with_data. destruct (nd_keypair n) as [kp|]; [|discriminate].
    rewrite mbind_lift. destruct (ec_key_copy _) as [e|]; [|discriminate]. rewrite mbind_lift. destruct (ecdh_ctx_create_key _ _) as [y|]; [|discriminate].
    rewrite mbind_lift. destruct (exchange_kdf_meta _ _ _ _) as [m|]; [|discriminate]. unfold mbind.
    unfold ecdh_cipher, mbind, mres. destruct (ecdh_gen_cipher_key P y _ _) as [ck| |]; [|discriminate..].
    pose proof (encrypt_draw (Some d) None (Some ck) s) as D. destruct (aes256_encrypt P (Some d) None (Some ck) None s) as [[r| |] s1]; [|discriminate..]. specialize (D _ eq_refl). cbn [snd] in D. subst s1.
    unfold mlift, mres. destruct (buffer_copy _); [|discriminate]. reflexivity.
  Qed.
  Lemma exchanges_draw se k pk v l : forall s x, fst (make_exchanges P se k pk v l s) = Val x -> snd (make_exchanges P se k pk v l s) = (length l + s)%nat.
  Proof.
    induction l as [|n l IH]; intros s x; cbn [make_exchanges]; [reflexivity|]. unfold mbind.
    pose proof (exchange_draw (Some se) n k (Some pk) None v s) as D. destruct (exchange_create_with_packet_key _ _ _ _ _ _ _ s) as [[r| |] s1]; [|discriminate..]. specialize (D _ eq_refl). cbn [snd] in D. subst s1.
    specialize (IH (S s)). destruct (make_exchanges _ _ _ _ _ l (S s)) as [[r'| |] s1]; [|discriminate..]. specialize (IH _ eq_refl). cbn [snd] in IH. subst s1. unfold mret, mres. intros _. cbn [snd fst length]. lia.
  Qed.

  (* --- nodes that differ in what validation notes only --- *)
  Definition same_node (n n' : node) : Prop :=
    nd_dev_id n' = nd_dev_id n /\ nd_keypair n' = nd_keypair n /\ ch_root (nd_chain n') = ch_root (nd_chain n) /\ ch_node (nd_chain n') = ch_node (nd_chain n).
  Definition same_nodes : list (option node) -> list (option node) -> Prop :=
    Forall2 (fun o o' => o = o' \/ exists n n', o = Some n /\ o' = Some n' /\ same_node n n').
  Lemma same_nodes_refl l : same_nodes l l.
  Proof. induction l; constructor; auto. Qed.
  Lemma same_node_create n n' : same_node n n' -> forall se k pk psk v, exchange_create_with_packet_key P se (Some n') k pk psk v = exchange_create_with_packet_key P se (Some n) k pk psk v.
  Proof. destruct n as [d [r m st c] kp st' c'], n' as [d2 [r2 m2 st2 c2] kp2 st2' c2']. intros (A & B & C & D). cbn in A, B, C, D. subst. reflexivity. Qed.
  Lemma same_node_public n n' : same_node n n' -> forall se k pk psk v s, wrap_public P se (Some n') k pk psk v s = wrap_public P se (Some n) k pk psk v s.
  Proof. destruct n as [d [r m st c] kp st' c'], n' as [d2 [r2 m2 st2 c2] kp2 st2' c2']. intros (A & B & C & D). cbn in A, B, C, D. subst. reflexivity. Qed.
  Lemma same_node_exposed n n' : same_node n n' -> forall se k pk psk v, wrap_exposed P se (Some n') k pk psk v = wrap_exposed P se (Some n) k pk psk v.
  Proof. destruct n as [d [r m st c] kp st' c'], n' as [d2 [r2 m2 st2 c2] kp2 st2' c2']. intros (A & B & C & D). cbn in A, B, C, D. subst. reflexivity. Qed.
  Lemma same_make l l' : same_nodes l l' -> forall se k pk v, make_exchanges P se k pk v l' = make_exchanges P se k pk v l.
  Proof.
    induction 1 as [|o o' l l' J _ IH]; intros se k pk v; [reflexivity|]. cbn [make_exchanges]. rewrite IH. destruct J as [->|(n & n' & -> & -> & S)]; [reflexivity|]. rewrite (same_node_create _ _ S). reflexivity.
  Qed.
  Lemma same_public l l' : same_nodes l l' -> forall se ek pk v s, exchanges_public P se ek pk v l' s = exchanges_public P se ek pk v l s.
  Proof.
    induction 1 as [|o o' l l' J _ IH]; intros se k pk v s; [reflexivity|]. cbn [exchanges_public]. rewrite IH. destruct J as [->|(n & n' & -> & -> & S)]; [reflexivity|].
    rewrite (same_node_create _ _ S), (same_node_public _ _ S). reflexivity.
  Qed.
  Lemma same_exposed l l' : same_nodes l l' -> forall se ek pk v, exchanges_exposed P se ek pk v l' = exchanges_exposed P se ek pk v l.
  Proof.
    induction 1 as [|o o' l l' J _ IH]; intros se k pk v; [reflexivity|]. unfold exchanges_exposed in *. cbn [flat_map]. rewrite IH. destruct J as [->|(n & n' & -> & -> & S)]; [reflexivity|]. rewrite (same_node_exposed _ _ S). reflexivity.
  Qed.
  Lemma in_place_same n n' : node_in_place n n' -> same_node (nd_value n) (nd_value n').
  Proof.
    destruct n as [a d [b r m st c] kp st' c'], n' as [a2 d2 [b2 r2 m2 st2 c2] kp2 st2' c2']. intros (A & B & C & D & F & G). cbn in A, B, C, D, F, G. subst. repeat split.
  Qed.
  Lemma same_length l l' : same_nodes l l' -> length l' = length l.
  Proof. induction 1; cbn [length]; congruence. Qed.
  Lemma after_same fails l : forall l' b, recipients_after P fails l l' b -> same_nodes (recipients_value l) (recipients_value l').
  Proof.
    induction l as [|[n|] l IH]; intros [|[n'|] l'] b J; try destruct J.
    - constructor.
    - destruct H as ((IP & _) & J). cbn [fst snd] in *. constructor; [right; exists (nd_value n), (nd_value n'); repeat split; apply (in_place_same _ _ IP)|].
      destruct x; [exact (IH _ _ J)|]. destruct J as (_ & ->). apply same_nodes_refl.
    - subst. constructor; [left; reflexivity|apply same_nodes_refl].
  Qed.
  Lemma after_length fails l : forall l' b, recipients_after P fails l l' b -> length l' = length l.
  Proof. intros l' b J. apply after_same in J. apply same_length in J. unfold recipients_value in J. rewrite !map_length in J. exact J. Qed.

  (* --- the recipients --- *)
  Lemma recipients_validate_rule (R : sha_ok P) l : change_rule [] (recipients_cells l) (fun a => recipients_cells (snd a)) (fun fails a => recipients_after P fails l (snd a) (fst a))
    (recipients_strings P (recipients_value l)) [] (T_openssl :: buffer_kinds) never_leaks_op (h_recipients_validate P l).
  Proof.
    induction l as [|[n|] l IH]; begin_change; cbn [h_recipients_validate].
    - wstep. apply QA; [exact E|reflexivity].
    - change (recipients_cells (Some n :: l)) with (nd_cells n ++ recipients_cells l)%list in E. change (recipients_strings P (recipients_value (Some n :: l))) with (node_strings P (nd_value n) ++ recipients_strings P (recipients_value l))%list in K.
      rewrite <- app_assoc in E. wstep. eapply (node_verify_rule P R n) with (W := W); [exact HU|intros []|exact E|apply Forall_nil|part_of K|intros _; exact K0|].
      intros (v & n') h1 E1 J. unfold node_left in E1. cbn [fst snd] in *. destruct v; cbn [negb].
      + wstep. eapply (ext_perm _ _ _ _ (recipients_cells l ++ nd_cells n' ++ X)%list) in E1; [|apply HeapFacts.perm_swap].
        eapply IH with (W := W); [exact HU|intros []|exact E1|apply Forall_nil|part_of K|intros _; exact K0|].
        intros (b & l') h2 E2 JL. cbn [fst snd] in *. wstep. apply QA.
        * cbn [snd]. change (recipients_cells (Some n' :: l')) with (nd_cells n' ++ recipients_cells l')%list. eapply ext_perm; [|exact E2]. solve_perm.
        * cbn [fst snd recipients_after]. exists true. split; [exact J|exact JL].
      + wstep. apply QA.
        * cbn [snd]. change (recipients_cells (Some n' :: l)) with (nd_cells n' ++ recipients_cells l)%list. rewrite <- app_assoc. exact E1.
        * cbn [fst snd recipients_after]. exists false. split; [exact J|split; reflexivity].
    - wstep. apply QA; [exact E|]. split; reflexivity.
  Qed.

  (* --- the exchanges --- *)
  Lemma make_eq se k pk v n l s : fst (make_exchanges P se k pk v (n :: l) s) =
    match fst (exchange_create_with_packet_key P (Some se) n k (Some pk) None v s) with
    | Val x => match fst (make_exchanges P se k pk v l (S s)) with Val r => Val (Some x :: r) | Null => Null | UB => UB end
    | Null => Null
    | UB => UB
    end.
  Proof.
    cbn [make_exchanges]. unfold mbind. pose proof (exchange_draw (Some se) n k (Some pk) None v s) as D.
    destruct (exchange_create_with_packet_key _ _ _ _ _ _ _ s) as [[r| |] s1]; [|reflexivity..]. specialize (D _ eq_refl). cbn [snd] in D. subst s1. cbn [fst].
    destruct (make_exchanges _ _ _ _ _ l (S s)) as [[r'| |] s1]; reflexivity.
  Qed.
  Lemma put_wp {T} (cells : T -> list cell) x (done : list T) n a secret (U W : Prop) fails h0 X h (Q : bool * harr T -> heap -> Prop) :
    harr_items a = (map Some done ++ repeat None (S n))%list -> ext secret W h0 (cells x ++ arr_cells cells a ++ X) h ->
    (forall a' h1, ext secret W h0 (arr_cells cells a' ++ X) h1 -> harr_items a' = (map Some (done ++ [x]) ++ repeat None n)%list -> Q (true, a') h1) ->
    wp U fails (h_array_put a (length done) x) h Q.
  Proof.
    intros I E1 G. unfold h_array_put. unfold arr_cells in E1. norm E1. wstep. wstep.
    rewrite I. rewrite nth_error_app2 by (rewrite map_length; lia). rewrite map_length, Nat.sub_diag. cbn [length repeat nth_error]. wstep.
    rewrite firstn_app, map_length, Nat.sub_diag, firstn_O, app_nil_r. rewrite (firstn_all2 (map Some done)) by (rewrite map_length; lia).
    rewrite skipn_app, map_length. rewrite (skipn_all2 (map Some done)) by (rewrite map_length; lia).
    replace (S (length done) - length done)%nat with 1%nat by lia. cbn [skipn app]. apply G.
    - unfold arr_cells, arr_store. cbn [harr_addr harr_store harr_items].
      rewrite I in E1. unfold arr_store in E1. rewrite I in E1. rewrite flat_map_app in *. cbn [flat_map cells_opt repeat app] in *. rewrite !app_length in *. cbn [length] in *. rewrite !repeat_length, !map_length in *.
      rewrite ?app_nil_r in *. eapply ext_perm; [|exact E1]. solve_perm.
    - cbn [harr_items]. rewrite map_app, <- app_assoc. reflexivity.
  Qed.
  Local Opaque exchange_create_with_packet_key wrap_public wrap_exposed h_exchange_create_with_packet_key make_exchanges keeps_secret.
  Lemma make_exchanges_wp (R : rand_ok P) (A : aead_ok P) (C : ctr_ok P) (R1 : scrypt_ok P) (R2 : hkdf_ok P) se ek pk version (MK : made_ec_key (key_value ek))
      secret (U W : Prop) fails h0 X (Q : option (harr hkx) -> heap -> Prop) :
    (forall n ty, In ty sending_kinds -> fails n ty = true -> U) -> (some_failure fails -> W) ->
    forall l done a s h, harr_items a = (map Some done ++ repeat None (length l))%list ->
    stable secret W h0 X (ch_cells se :: key_cells ek :: ck_cells pk :: map (oc nd_cells) l) -> ext secret W h0 (xa_cells a ++ X) h ->
    keeps_secret secret (exchanges_public P (ch_value se) (key_value ek) (ck_value pk) version (recipients_value l) s) ->
    (some_failure fails -> keeps_secret secret (exchanges_exposed P (ch_value se) (key_value ek) (ck_value pk) version (recipients_value l))) ->
    keeps_secret secret (items_plain done) ->
    (forall h1, ext secret W h0 X h1 -> fst (make_exchanges P (ch_value se) (Some (key_value ek)) (ck_value pk) version (recipients_value l) s) = Null \/ some_failure fails -> Q None h1) ->
    (forall a' vs h1, ext secret W h0 (xa_cells a' ++ X) h1 -> fst (make_exchanges P (ch_value se) (Some (key_value ek)) (ck_value pk) version (recipients_value l) s) = Val vs ->
       xa_value a' = (map (fun x => Some (kx_value x)) done ++ vs)%list -> keeps_secret secret (xa_plain (xa_value a')) -> Q (Some a') h1) ->
    wp U fails (h_make_exchanges P se (Some ek) pk version l (length done) (Some a) s) h Q.
  Proof.
    intros HU HW. assert (MS : if_set made_ec_key (option_map key_value (Some ek))) by (intros z Z; injection Z as <-; exact MK).
    induction l as [|n l IH]; intros done a s h I ST E K KE KD QN QS; cbn [h_make_exchanges].
    - wstep. cbn [length repeat] in I. rewrite app_nil_r in I. apply (QS a []); [exact E|reflexivity| |].
      + unfold xa_value, arr_value. rewrite I, map_map, app_nil_r. reflexivity.
      + unfold xa_value, arr_value. rewrite I, map_map. unfold items_plain in KD. exact KD.
    - change (recipients_value (n :: l)) with (option_map nd_value n :: recipients_value l) in *. cbn [exchanges_public] in K. unfold exchanges_exposed in KE. cbn [flat_map] in KE. rewrite make_eq in QN, QS.
      assert (KA : keeps_secret secret (xa_plain (xa_value a))) by (unfold xa_value, arr_value; rewrite I, items_public; exact KD).
      pose proof (keeps_none _ _ K) as K0.
      assert (KW : keeps_secret secret (wrap_public P (Some (ch_value se)) (option_map nd_value n) (Some (key_value ek)) (Some (ck_value pk)) None version s)) by part_of K.
      assert (KX : some_failure fails -> keeps_secret secret (wrap_exposed P (Some (ch_value se)) (option_map nd_value n) (Some (key_value ek)) (Some (ck_value pk)) None version)) by (intros F; specialize (KE F); part_of KE).
      wstep. cbn [map] in ST. present ST.
      call (create_with_packet_key_rule P R A C R1 R2 (Some se) n (Some ek) (Some pk) None version s MS).
      + intros V. destruct (packet_key_safe P (Some (ch_value se)) (option_map nd_value n) (Some (key_value ek)) (Some (ck_value pk)) None version R s V).
      + rid exchange_array_destroy_rule a; [exact KA|]. out. left. cbn [option_map] in N. rewrite N. reflexivity.
      + rid exchange_array_destroy_rule a; [exact KA|]. out. right. exact F.
      + cbn [option_map] in V. rewrite V in QN, QS, K. cbn [plain_of] in K. wstep. eapply (put_wp kx_cells); [exact I|exact E0|].
        intros a' h2 E2 I'. cbn [fst snd]. replace (S (length done)) with (length (done ++ [t])) by (rewrite app_length; cbn; lia).
        eapply IH; [exact I'| |exact E2|part_of K|intros F; specialize (KE F); unfold exchanges_exposed; part_of KE| | |].
        * refine (stable_sub _ _ _ _ _ _ _ ST). intros z J. cbn [In] in *. tauto.
        * unfold items_plain. rewrite map_app. unfold xa_plain. rewrite all_public_app.
          split; [exact (proj1 K)|]. intros c J. apply in_app_iff in J. destruct J as [J|J]; [exact (proj2 KD _ J)|].
          cbn in J. rewrite !app_nil_r in J. apply (proj2 K). rewrite !in_app_iff. right. left. exact J.
        * intros h3 E3 F. apply QN; [exact E3|]. destruct F as [F|F]; [left|right; exact F]. rewrite F. reflexivity.
        * intros a2 vs h3 E3 F VA KV. apply (QS a2 (Some (kx_value t) :: vs)); [exact E3| | |exact KV].
          -- rewrite F. reflexivity.
          -- rewrite VA, map_app, <- app_assoc. reflexivity.
  Qed.

  (* --- the packet --- *)
  Local Opaque exchange_set_encrypt payload_encrypt packet_create_with_components packet_public xs_written.
  Lemma seal_eq ek hk pk pl se v items s : fst (seal P ek hk pk pl se v items s) =
    match fst (exchange_set_encrypt P (Some {| xs_sender := ek; xs_items := items |}) (Some hk) s) with
    | Val eh => match fst (payload_encrypt P (Some pl) (Some pk) (S s)) with
                | Val ep => fst (packet_create_with_components P (Some eh) (Some ep) (Some (id_key (ch_node se))) v (S (S s)))
                | Null => Null
                | UB => UB
                end
    | Null => Null
    | UB => UB
    end.
  Proof.
    unfold seal, mbind. pose proof (set_draw (Some {| xs_sender := ek; xs_items := items |}) (Some hk) s) as D. destruct (exchange_set_encrypt _ _ _ s) as [[eh| |] s1]; [|reflexivity..]. specialize (D _ eq_refl). cbn [snd] in D. subst s1. cbn [fst].
    pose proof (payload_draw (Some pl) (Some pk) (S s)) as D. destruct (payload_encrypt _ _ _ (S s)) as [[ep| |] s1]; [|reflexivity..]. specialize (D _ eq_refl). cbn [snd] in D. subst s1. reflexivity.
  Qed.
  Lemma local_wp secret (U W : Prop) fails h0 X h (Q : option block -> heap -> Prop) : ext secret W h0 X h ->
    (forall b h1, ext secret W h0 (struct_cell b ++ X) h1 -> Q (Some b) h1) -> wp U fails h_local h Q.
  Proof.
    intros E G. change (wp U (fun _ _ => false) (alloc T_key_exchange_set []) h Q). eapply wp_alloc; [exact E| |exact G]. intros h1 _ (n & F). discriminate F.
  Qed.
  Lemma in_memory_perm h a b : Permutation a b -> in_memory h a -> in_memory h b.
  Proof.
    intros PP (N & M). split; [exact (Permutation_NoDup (Permutation_map fst PP) N)|]. intros x c I. apply M. exact (Permutation_in _ (Permutation_sym PP) I).
  Qed.
  Lemma seal_packet_wp (R : rand_ok P) (A : aead_ok P) (C : ctr_ok P) (SO : sign_ok P) hk pk ek pl se version (SD : sendable (py_value pl)) a s
      secret (U W : Prop) fails h0 X h (Q : option hpt -> heap -> Prop) :
    (forall n ty, In ty sending_kinds -> fails n ty = true -> U) -> (sign_leak P (Some (hid_key (hch_node se))) fails -> W) ->
    stable secret W h0 X [key_cells ek; ck_cells hk; ck_cells pk; py_cells pl; ch_cells se] -> ext secret W h0 (xa_cells a ++ X) h ->
    keeps_secret secret (sealing_public P (ck_value hk) (ck_value pk) (key_value ek) (py_value pl) (ch_value se) version (xa_value a) s) ->
    keeps_secret secret (xa_plain (xa_value a)) ->
    (forall h1, ext secret W h0 X h1 -> fst (seal P (key_value ek) (ck_value hk) (ck_value pk) (py_value pl) (ch_value se) version (xa_value a) s) = Null \/ some_failure fails -> Q None h1) ->
    (forall t h1, ext secret W h0 (pt_cells t ++ X) h1 -> fst (seal P (key_value ek) (ck_value hk) (ck_value pk) (py_value pl) (ch_value se) version (xa_value a) s) = Val (pt_value t) -> Q (Some t) h1) ->
    wp U fails (h_seal_packet P hk pk ek pl se version a s) h Q.
  Proof.
    intros HU HW ST E K KA QN QS. pose proof (keeps_none _ _ K) as K0. pose proof (seal_safe P (key_value ek) (ck_value hk) (ck_value pk) (py_value pl) (ch_value se) version (xa_value a) R C A SD s) as SF.
    unfold sealing_public in K. cbv zeta in K. rewrite seal_eq in QN, QS, SF. unfold h_seal_packet. wstep. eapply local_wp; [exact E|]. intros b h1 E1. clear E. wstep.
    set (x := {| hxs_addr := b; hxs_sender := ek; hxs_items := a |}) in *.
    assert (MX : in_memory h1 (xs_cells x)).
    { eapply in_memory_perm; [|eapply stable_with; [refine (stable_sub _ _ _ _ _ _ _ ST); intros z [<-|[]]; left; reflexivity|rewrite app_assoc in E1; exact E1]].
      unfold xs_cells, x. cbn [hxs_addr hxs_sender hxs_items]. apply HeapFacts.perm_swap. }
    present ST. change {| xs_sender := key_value ek; xs_items := xa_value a |} with (xs_value x) in *.
    call (exchange_set_encrypt_rule P R A C (Some x) (Some hk) s).
    - intros V. destruct SF. cbn [option_map] in V. rewrite V. reflexivity.
    - cbn [option_map] in N. rewrite N in *. rid exchange_array_destroy_rule a; [exact KA|]. repeat wstep. apply QN; [assumption|left; reflexivity].
    - rid exchange_array_destroy_rule a; [exact KA|]. repeat wstep. apply QN; [assumption|right; exact F].
    - cbn [option_map] in V. rewrite V in *. cbn [plain_of] in K. rid exchange_array_destroy_rule a; [exact KA|]. wstep. clear MX. present ST. 
      call (payload_encrypt_rule P R A C (Some pl) (Some pk) (S s)).
      + intros V1. destruct SF. cbn [option_map] in V1. rewrite V1. reflexivity.
      + cbn [option_map] in N. rewrite N in *. rid cipher_result_destroy_rule t; [part_of K|]. repeat wstep. apply QN; [assumption|left; reflexivity].
      + rid cipher_result_destroy_rule t; [part_of K|]. repeat wstep. apply QN; [assumption|right; exact F].
      + cbn [option_map] in V0. rewrite V0 in *. cbn [plain_of] in K. wstep. present ST. match goal with M : in_memory h5 (ch_cells se) |- _ => parts M ch_cells; inner (hch_node se) id_cells; inner (hid_key (hch_node se)) key_cells end.
        wstep. wstep. wstep. change (id_key (ch_node (ch_value se))) with (key_value (hid_key (hch_node se))) in *.
        call (packet_create_rule P SO (Some t) (Some t0) (Some (hid_key (hch_node se))) version (S (S s))).
        * intros V1. destruct SF. exact V1.
        * rid cipher_result_destroy_rule t; [part_of K|]. rid cipher_result_destroy_rule t0; [part_of K|]. repeat wstep. apply QN; [assumption|left; exact N].
        * rid cipher_result_destroy_rule t; [part_of K|]. rid cipher_result_destroy_rule t0; [part_of K|]. repeat wstep. apply QN; [assumption|right; exact F].
        * rid cipher_result_destroy_rule t; [part_of K|]. rid cipher_result_destroy_rule t0; [part_of K|]. repeat wstep. apply QS; [assumption|exact V1].
  Qed.

  (* --- the packet for its recipients --- *)
  Lemma packet_to_eq hk pk ek p l se v s : l <> [] -> fst (packet_to P hk pk ek p l se v s) =
    if exchange_array_ok (N.of_nat (length l)) then
      match fst (make_exchanges P se (Some ek) pk v l s) with
      | Val items => fst (seal P ek hk pk p se v items (length l + s)%nat)
      | Null => Null
      | UB => UB
      end
    else Null.
  Proof.
    intros NE. unfold packet_to. replace (N.of_nat (length l) =? 0) with false by (destruct l; [destruct (NE eq_refl)|cbn [length]; lia]).
    destruct (exchange_array_ok _); [|reflexivity]. cbn [negb]. rewrite bind_eq. pose proof (exchanges_draw se (Some ek) pk v l s) as D.
    destruct (make_exchanges _ _ _ _ _ l s) as [[r| |] s1]; [|reflexivity..]. specialize (D _ eq_refl). cbn [snd] in D. subst s1. reflexivity.
  Qed.
  Lemma array_item {T} (cells : T -> list cell) h a o : in_memory h (arr_cells cells a) -> In o (harr_items a) -> in_memory h (oc cells o).
  Proof.
    intros M I. unfold arr_cells in M. repeat (apply in_memory_app in M; destruct M as (_ & M)). apply in_split in I. destruct I as (l1 & l2 & I). rewrite I, flat_map_app in M.
    apply in_memory_app in M. destruct M as (_ & M). cbn [flat_map] in M. apply in_memory_app in M. exact (proj1 M).
  Qed.
  Lemma stable_items secret W h0 X a : stable secret W h0 (arr_cells nd_cells a ++ X) (map (oc nd_cells) (harr_items a)).
  Proof.
    intros Y h E. pose proof (stable_made _ _ _ _ _ _ _ E) as (M & _)%all_cons. apply Forall_forall. intros c I. apply in_map_iff in I. destruct I as (o & <- & I). exact (array_item _ _ _ _ M I).
  Qed.
  Lemma make_none_wp (R : rand_ok P) (A : aead_ok P) (C : ctr_ok P) (R1 : scrypt_ok P) (R2 : hkdf_ok P) se ek pk version (MK : made_ec_key (key_value ek)) l s
      secret (U W : Prop) fails h0 X h (Q : option (harr hkx) -> heap -> Prop) :
    (forall n ty, In ty sending_kinds -> fails n ty = true -> U) -> (some_failure fails -> W) ->
    stable secret W h0 X (ch_cells se :: key_cells ek :: ck_cells pk :: map (oc nd_cells) l) -> ext secret W h0 X h ->
    keeps_secret secret (exchanges_public P (ch_value se) (key_value ek) (ck_value pk) version (recipients_value l) s) ->
    (some_failure fails -> keeps_secret secret (exchanges_exposed P (ch_value se) (key_value ek) (ck_value pk) version (recipients_value l))) ->
    (forall h1, ext secret W h0 X h1 -> Q None h1) ->
    wp U fails (h_make_exchanges P se (Some ek) pk version l 0 None s) h Q.
  Proof.
    intros HU HW ST E K KE QN. assert (MS : if_set made_ec_key (option_map key_value (Some ek))) by (intros z Z; injection Z as <-; exact MK).
    destruct l as [|n l]; cbn [h_make_exchanges]; [wstep; exact (QN _ E)|].
    change (recipients_value (n :: l)) with (option_map nd_value n :: recipients_value l) in *. cbn [exchanges_public] in K. unfold exchanges_exposed in KE. cbn [flat_map] in KE.
    pose proof (keeps_none _ _ K) as K0.
    assert (KW : keeps_secret secret (wrap_public P (Some (ch_value se)) (option_map nd_value n) (Some (key_value ek)) (Some (ck_value pk)) None version s)) by part_of K.
    assert (KX : some_failure fails -> keeps_secret secret (wrap_exposed P (Some (ch_value se)) (option_map nd_value n) (Some (key_value ek)) (Some (ck_value pk)) None version)) by (intros F; specialize (KE F); part_of KE).
    wstep. cbn [map] in ST. present ST.
    call (create_with_packet_key_rule P R A C R1 R2 (Some se) n (Some ek) (Some pk) None version s MS).
    - intros V. destruct (packet_key_safe P (Some (ch_value se)) (option_map nd_value n) (Some (key_value ek)) (Some (ck_value pk)) None version R s V).
    - repeat wstep. apply QN. assumption.
    - repeat wstep. apply QN. assumption.
    - cbn [option_map] in V. rewrite V in K. cbn [plain_of] in K. rid key_exchange_destroy_rule t; [part_of K|]. repeat wstep. apply QN. assumption.
  Qed.
  Lemma with_cells rs l : length l = length (harr_items rs) ->
    arr_cells nd_cells (with_items rs l) = (struct_cell (harr_addr rs) ++ cells_opt buf_cells (arr_store rs) ++ recipients_cells l)%list.
  Proof. intros L. unfold arr_cells, arr_store, with_items. cbn [harr_addr harr_store harr_items]. rewrite L. reflexivity. Qed.
  Local Opaque seal packet_to exchanges_public exchanges_exposed sealing_public recipients_strings.
  Lemma from_components_wp (SH : sha_ok P) (R : rand_ok P) (A : aead_ok P) (C : ctr_ok P) (R1 : scrypt_ok P) (R2 : hkdf_ok P) (SO : sign_ok P) hk pk ek pl rs se version s
      (MK : made_ec_key (key_value ek)) (SD : sendable (py_value pl)) (CO : countable rs) secret (U W : Prop) fails h0 X h (Q : option hpt * option (harr hnd) -> heap -> Prop) :
    (forall n ty, In ty sending_kinds -> fails n ty = true -> U) -> (sign_leak P (Some (hid_key (hch_node se))) fails -> W) ->
    stable secret W h0 X [key_cells ek; ck_cells hk; ck_cells pk; py_cells pl; ch_cells se] -> ext secret W h0 (arr_cells nd_cells rs ++ X) h ->
    keeps_secret secret (sending_public P (ck_value hk) (ck_value pk) (key_value ek) (py_value pl) (recipients_value (harr_items rs)) (ch_value se) version s) ->
    (some_failure fails -> keeps_secret secret (exchanges_exposed P (ch_value se) (key_value ek) (ck_value pk) version (recipients_value (harr_items rs)))) ->
    (forall a h1, ext secret W h0 (with_recipients pt_cells a ++ X) h1 ->
       sends pt_value P rs (fst (packet_to P (ck_value hk) (ck_value pk) (key_value ek) (py_value pl) (recipients_value (harr_items rs)) (ch_value se) version s)) fails a -> Q a h1) ->
    wp U fails (h_packet_create_from_components P (Some hk) (Some pk) (Some ek) (Some pl) (Some rs) (Some se) version s) h Q.
  Proof.
    intros HU HW ST E K KE QA. pose proof (keeps_none _ _ K) as K0. assert (HWF : some_failure fails -> W) by (intros F; apply HW; left; exact F).
    unfold h_packet_create_from_components. unfold arr_cells in E. norm E. wstep. wstep. destruct (harr_items rs) as [|o l] eqn:I.
    { wstep. apply QA.
      - unfold with_recipients. cbn [fst snd cells_opt app]. unfold arr_cells. rewrite I. eapply ext_perm; [|exact E]. solve_perm.
      - exists rs, true. cbn [fst snd]. rewrite I. repeat split. right. left. reflexivity. }
    rewrite <- I in *. assert (NE : harr_items rs <> []) by (rewrite I; discriminate). clear I o l.
    unfold sending_public in K.
    change (flat_map (cells_opt nd_cells) (harr_items rs)) with (recipients_cells (harr_items rs)) in E.
    pull E (recipients_cells (harr_items rs)). wstep.
    eapply (recipients_validate_rule SH (harr_items rs)) with (W := W); [untested_tac|intros []|exact E|apply Forall_nil|part_of K|intros _; exact K0|].
    intros (b & l') h1 E1 J. cbn [fst snd] in *. clear E. pose proof (after_length _ _ _ _ J) as LL. pose proof (after_same _ _ _ _ J) as SN.
    set (rs' := with_items rs l') in *.
    assert (E : ext secret W h0 (arr_cells nd_cells rs' ++ X) h1).
    { unfold rs'. rewrite with_cells by exact LL. eapply ext_perm; [|exact E1]. solve_perm. }
    clear E1. assert (SA : same_array rs rs') by (split; reflexivity).
    assert (II : harr_items rs' = l') by reflexivity. cbv zeta.
    assert (NIL : forall h2, ext secret W h0 (arr_cells nd_cells rs' ++ X) h2 ->
      b = false \/ fst (packet_to P (ck_value hk) (ck_value pk) (key_value ek) (py_value pl) (recipients_value (harr_items rs)) (ch_value se) version s) = Null \/ some_failure fails ->
      Q (None, Some rs') h2).
    { intros h2 E2 G. apply QA; [exact E2|]. exists rs', b. cbn [fst snd]. split; [reflexivity|]. split; [exact SA|]. split; [exact J|exact G]. }
    destruct b; cbn [negb]; [|wstep; apply NIL; [exact E|left; reflexivity]].
    rewrite <- (same_public _ _ SN), <- (same_make _ _ SN) in K. rewrite <- (same_exposed _ _ SN) in KE.
    assert (NV : recipients_value (harr_items rs) <> []) by (unfold recipients_value; destruct (harr_items rs); [destruct (NE eq_refl)|discriminate]).
    assert (LV : length (recipients_value (harr_items rs)) = length l') by (unfold recipients_value; rewrite map_length; symmetry; exact LL).
    pose proof (packet_to_eq (ck_value hk) (ck_value pk) (key_value ek) (py_value pl) _ (ch_value se) version s NV) as PE. rewrite <- (same_make _ _ SN) in PE. rewrite LV in PE, K.
    assert (OK : exchange_array_ok (N.of_nat (length l')) = size_ok (8 * N.of_nat (length l'))).
    { unfold countable in CO. unfold exchange_array_ok. rewrite N.mod_small by (unfold two64; lia).
      destruct (N.of_nat (length l') =? 0) eqn:Z; [|reflexivity]. destruct (harr_items rs); [destruct (NE eq_refl)|cbn [length] in LL; lia]. }
    rewrite OK in PE.
    assert (STN : stable secret W h0 (arr_cells nd_cells rs' ++ X) (ch_cells se :: key_cells ek :: ck_cells pk :: map (oc nd_cells) l')).
    { refine (stable_sub _ _ _ _ _ _ _ (stable_app _ _ _ _ _ _ (stable_more _ _ _ _ (arr_cells nd_cells rs') _ ST) (stable_items _ _ _ X rs'))).
      intros z G. rewrite II. rewrite in_app_iff. cbn [In] in *. tauto. }
    assert (STS : stable secret W h0 (arr_cells nd_cells rs' ++ X) [key_cells ek; ck_cells hk; ck_cells pk; py_cells pl; ch_cells se]) by (apply stable_more; exact ST).
    wstep. eapply (array_new_wp kx_cells); [intros Z; rewrite Z in LL; destruct (harr_items rs); [exact (NE eq_refl)|discriminate LL]|exact E|exact K0| |].
    - intros h2 E2 G. wstep. eapply make_none_wp; try eassumption; [part_of K|]. intros h3 E3. repeat wstep. apply NIL; [exact E3|right].
      destruct G as [G|G]; [left|right; exact G]. rewrite PE, G. reflexivity.
    - intros a h2 E2 SZ IT. rewrite SZ in PE. wstep. change 0%nat with (length (@nil hkx)).
      eapply make_exchanges_wp; try eassumption; [part_of K| |].
      + intros h3 E3 G. repeat wstep. apply NIL; [exact E3|right]. destruct G as [G|G]; [left|right; exact G]. rewrite PE, G. reflexivity.
      + intros a' vs h3 E3 G VA KA. rewrite G in PE, K. cbn [plain_of] in K. cbn [map app] in VA. rewrite <- VA in PE, K. wstep.
        eapply seal_packet_wp; try eassumption; [part_of K| |].
        * intros h4 E4 F. wstep. apply NIL; [exact E4|right]. rewrite PE. exact F.
        * intros t h4 E4 F. wstep. apply QA.
          -- unfold with_recipients. cbn [fst snd cells_opt]. rewrite <- app_assoc. exact E4.
          -- exists rs', true. cbn [fst snd]. split; [reflexivity|]. split; [exact SA|]. split; [exact J|]. split; [reflexivity|]. rewrite PE. exact F.
  Qed.
  Lemma from_components_rule (SH : sha_ok P) (R : rand_ok P) (A : aead_ok P) (C : ctr_ok P) (R1 : scrypt_ok P) (R2 : hkdf_ok P) (SO : sign_ok P) hk pk ek pl rs se version s
      (MK : made_ec_key (key_value ek)) (SD : sendable (py_value pl)) (CO : countable rs) :
    use_rule [ck_cells hk; ck_cells pk; key_cells ek; py_cells pl; ch_cells se] (arr_cells nd_cells rs) (with_recipients pt_cells)
      (sends pt_value P rs (fst (packet_to P (ck_value hk) (ck_value pk) (key_value ek) (py_value pl) (recipients_value (harr_items rs)) (ch_value se) version s)))
      (sending_public P (ck_value hk) (ck_value pk) (key_value ek) (py_value pl) (recipients_value (harr_items rs)) (ch_value se) version s)
      (exchanges_exposed P (ch_value se) (key_value ek) (ck_value pk) version (recipients_value (harr_items rs))) sending_kinds (sign_leak P (Some (hid_key (hch_node se))))
      (h_packet_create_from_components P (Some hk) (Some pk) (Some ek) (Some pl) (Some rs) (Some se) version s).
  Proof.
    intros secret U W fails h0 X h Q HU HW E M K KE QA. eapply from_components_wp; try eassumption. apply stable_source. each M. repeat apply Forall_cons; try assumption.
  Qed.

  (* --- with new keys --- *)
  Lemma encode_rule (EO : ec_ok P) (GO : gen_ok P) (SH : sha_ok P) (R : rand_ok P) (A : aead_ok P) (C : ctr_ok P) (R1 : scrypt_ok P) (R2 : hkdf_ok P) (SO : sign_ok P) x pl ns s
      (SD : sendable (py_value pl)) (CO : countable ns) :
    use_rule [cx_cells x; py_cells pl] (arr_cells nd_cells ns) (with_recipients en_cells) (encodes_right P (cx_value x) (py_value pl) ns s)
      (encoding_public P (cx_value x) (py_value pl) (recipients_value (harr_items ns)) s) (encoding_exposed P (cx_value x) (recipients_value (harr_items ns)) s)
      sending_kinds (sign_leak P (Some (hid_key (hch_node (hcx_chain x))))) (h_ctx_encode_packet P (Some x) (Some pl) (Some ns) s).
  Proof.
    intros secret U W fails h0 X h Q HU HW E M K KE QA. each M. pose proof (keeps_none _ _ K) as K0. assert (HWF : some_failure fails -> W) by (intros F; apply HW; left; exact F).
    assert (NK : forall h1, ext secret W h0 (arr_cells nd_cells ns ++ X) h1 -> with_new_keys P s True (fun _ _ => False) \/ some_failure fails -> Q (None, Some ns) h1).
    { intros h1 E1 G. apply QA; [exact E1|]. unfold encodes_right, with_new_keys in *. destruct (fst (cipher_key_random P default_cipher s)) as [k| |]; [|split; reflexivity..].
      destruct (fst (ec_rand_key P P521 (S s))) as [e| |]; [|split; reflexivity..]. destruct G as [[]|G]. right. split; [split; reflexivity|exact G]. }
    unfold h_ctx_encode_packet. unfold encodes_right, encoding_public, encoding_exposed, encoded_to, with_new_keys in *.
    parts M0 cx_cells. wstep. wstep. wstep. call (cipher_key_random_rule P R default_cipher s).
    - intros V. destruct (key_random_safe P s V).
    - wstep. apply NK; [assumption|]. left. rewrite N. exact I.
    - wstep. apply NK; [assumption|]. right. exact F.
    - rewrite V in *. wstep. call (ec_rand_key_rule P P521 (S s)).
      + intros V1. destruct (rand_key_safe P P521 (S s) V1).
      + rid cipher_key_destroy_rule t; [exact K0|]. wstep. apply NK; [assumption|]. left. rewrite N. exact I.
      + rid cipher_key_destroy_rule t; [exact K0|]. wstep. apply NK; [assumption|]. right. exact F.
      + rewrite V0 in *. wstep.
        assert (MKE : made_ec_key (key_value t0)).
        { apply (engine_made P); [exact EO|exact GO|]. destruct (ec_rand_key P P521 (S s)) as [r s1] eqn:G. cbn [fst] in V0. subst r. exact (IdentitySpec.made_random _ _ _ _ G). }
        at_heap ltac:(fun E => apply (ext_perm _ _ _ _ (arr_cells nd_cells ns ++ key_cells t0 ++ ck_cells t ++ X)%list) in E; [|solve_perm]).
        assert (ST : stable secret W h0 (key_cells t0 ++ ck_cells t ++ X) [key_cells t0; ck_cells (hcx_header x); ck_cells t; py_cells pl; ch_cells (hcx_chain x)]).
        { apply (stable_sub _ _ _ _ ([key_cells t0] ++ [ck_cells t] ++ [ck_cells (hcx_header x); py_cells pl; ch_cells (hcx_chain x)])); [intros z J; cbn [app In] in *; tauto|].
          apply stable_app; [apply stable_made|]. apply stable_app; [apply stable_more, stable_made|]. apply stable_source. repeat apply Forall_cons; try assumption. }
        change (cx_header_key (cx_value x)) with (ck_value (hcx_header x)) in *. change (cx_chain (cx_value x)) with (ch_value (hcx_chain x)) in *. change (cx_version (cx_value x)) with (hcx_version x) in *.
        eapply from_components_wp; try eassumption; [part_of K|].
        intros (o & r) h3 E3 (rs' & b & J1 & J2 & J3 & J4). cbn [fst snd] in *. subst r. unfold with_recipients in E3. cbn [fst snd cells_opt] in E3.
        destruct o as [p|]; cbn [cells_opt app] in E3; rewrite <- ?app_assoc in E3. all: clear E.
        * destruct J4 as (-> & J4). rewrite J4 in *. cbn [plain_of] in K. rid ec_key_destroy_rule t0; [exact K0|]. wstep. unfold h_encoder_result_create. wstep. wstep.
          -- wstep. wstep. rid cipher_key_destroy_rule t; [exact K0|]. rid packet_destroy_rule p; [part_of K|]. wstep. apply QA.
             ++ unfold with_recipients. cbn [fst snd cells_opt app]. eapply ext_perm; [|eassumption]. solve_perm.
             ++ left. exists rs', true. cbn [fst snd]. repeat (split; [first [reflexivity|assumption]|]). right. right. sfailed.
          -- repeat wstep. apply QA.
             ++ unfold with_recipients, en_cells. cbn [fst snd cells_opt app hen_addr hen_key hen_packet]. eapply ext_perm; [|eassumption]. solve_perm.
             ++ left. exists rs', true. cbn [fst snd]. repeat (split; [first [reflexivity|assumption]|]). reflexivity.
        * rid ec_key_destroy_rule t0; [exact K0|]. wstep. unfold h_encoder_result_create. wstep. rid cipher_key_destroy_rule t; [exact K0|]. repeat wstep. apply QA.
          -- unfold with_recipients. cbn [fst snd cells_opt app]. eapply ext_perm; [|eassumption]. solve_perm.
          -- left. exists rs', b. cbn [fst snd]. repeat (split; [first [reflexivity|assumption]|]). destruct J4 as [J4|[J4|J4]]; [left; exact J4|right; left; rewrite J4; reflexivity|right; right; exact J4].
  Qed.

  (* --- when nothing fails --- *)
  Lemma recipients_never l : forall l' b, recipients_after P never l l' b -> (b, recipients_value l') = recipients_validate P (recipients_value l).
  Proof.
    induction l as [|[n|] l IH]; intros [|[n'|] l'] b J; try (exfalso; exact J).
    - cbn [recipients_after] in J. subst. reflexivity.
    - destruct J as (x & JN & J). apply node_after_never in JN. destruct JN as (_ & JN). cbn [fst snd] in JN.
      change (recipients_value (Some n :: l)) with (Some (nd_value n) :: recipients_value l). change (recipients_value (Some n' :: l')) with (Some (nd_value n') :: recipients_value l').
      cbn [recipients_validate]. cbv zeta. rewrite <- JN. cbn [fst snd]. destruct x; cbn [negb].
      + rewrite <- (IH _ _ J). reflexivity.
      + destruct J as (-> & ->). reflexivity.
    - destruct J as (-> & ->). reflexivity.
  Qed.
  Lemma components_to hk pk ek p l se v s : rand_ok P -> fst (packet_create_from_components P (Some hk) (Some pk) (Some ek) (Some p) (Some l) (Some se) v s) =
    if fst (recipients_validate P l) then fst (packet_to P hk pk ek p (snd (recipients_validate P l)) se v s) else Null.
  Proof.
    intros R. rewrite components_eq. pose proof (validate_length P l) as L. destruct (N.of_nat (length l) =? 0) eqn:Z.
    - destruct l; [|cbn [length] in Z; lia]. reflexivity.
    - destruct (fst (recipients_validate P l)); [|reflexivity]. cbn [negb]. rewrite packet_to_eq by (intros G; rewrite G in L; cbn [length] in L; lia). rewrite L, bind_eq.
      destruct (exchange_array_ok _).
      + pose proof (exchanges_draw se (Some ek) pk v (snd (recipients_validate P l)) s) as D. destruct (make_exchanges _ _ _ _ _ _ s) as [[r| |] s1]; [|reflexivity..].
        specialize (D _ eq_refl). cbn [fst snd rbind] in *. rewrite D, L. reflexivity.
      + rewrite bind_eq. pose proof (packet_key_safe P (Some se) (hd None (snd (recipients_validate P l))) (Some ek) (Some pk) None v R s) as G.
        destruct (exchange_create_with_packet_key _ _ _ _ _ _ _ s) as [[r| |] s1]; [reflexivity|reflexivity|]. destruct (G eq_refl).
  Qed.
  Local Transparent packet_to.
  Lemma same_to l l' : same_nodes l l' -> forall hk pk ek p se v s, packet_to P hk pk ek p l' se v s = packet_to P hk pk ek p l se v s.
  Proof. intros S hk pk ek p se v s. unfold packet_to. rewrite (same_length _ _ S), (same_make _ _ S). reflexivity. Qed.
  Local Opaque packet_to.
  Lemma sends_never hk pk ek p rs se v s (R : rand_ok P) a :
    sends pt_value P rs (fst (packet_to P hk pk ek p (recipients_value (harr_items rs)) se v s)) never a ->
    sends_ok pt_value P rs (fst (packet_create_from_components P (Some hk) (Some pk) (Some ek) (Some p) (Some (recipients_value (harr_items rs))) (Some se) v s)) a.
  Proof.
    intros (rs' & b & J1 & J2 & J3 & J4). pose proof (recipients_never _ _ _ J3) as G. split.
    - rewrite (components_to _ _ _ _ _ _ _ _ R), <- G. cbn [fst snd]. rewrite (same_to _ _ (after_same _ _ _ _ J3)). destruct (fst a) as [t|]; cbn [makes_ok].
      + destruct J4 as (-> & J4). exact J4.
      + destruct J4 as [->|[J4|J4]]; [reflexivity|destruct b; [exact J4|reflexivity]|destruct (never_fails J4)].
    - exists rs'. split; [exact J1|]. split; [exact J2|]. rewrite <- G. reflexivity.
  Qed.
  Lemma encode_eq c p l s : fst (ctx_encode_packet P (Some c) (Some p) (Some l) s) =
    with_new_keys P s Null (fun k e => match fst (packet_create_from_components P (Some (cx_header_key c)) (Some k) (Some e) (Some p) (Some l) (Some (cx_chain c)) (cx_version c) (S (S s))) with
      | Val t => Val {| en_key := k; en_packet := t |} | Null => Null | UB => UB end).
  Proof.
    unfold ctx_encode_packet, with_new_keys. rewrite bind_eq. pose proof (cipher_key_draw P default_cipher s) as D. pose proof (key_random_safe P s) as S1. destruct (cipher_key_random P default_cipher s) as [[k| |] s1]; [|reflexivity|destruct (S1 eq_refl)].
    specialize (D _ eq_refl). cbn [fst snd rbind] in *. subst s1. rewrite bind_eq. pose proof (rand_key_draw P P521 (S s)) as D. pose proof (rand_key_safe P P521 (S s)) as S2. destruct (ec_rand_key P P521 (S s)) as [[e| |] s1]; [|reflexivity|destruct (S2 eq_refl)].
    cbn [fst snd rbind] in *. subst s1. rewrite bind_eq. destruct (packet_create_from_components _ _ _ _ _ _ _ _ _) as [[t| |] s1]; reflexivity.
  Qed.
  Lemma encodes_never c p rs s (R : rand_ok P) a : encodes_right P c p rs s never a -> encodes_ok P c p rs s a.
  Proof.
    unfold encodes_right, encodes_ok. rewrite encode_eq. unfold encoded_to, with_new_keys. intros G.
    destruct (fst (cipher_key_random P default_cipher s)) as [k| |]; [|exact G..]. destruct (fst (ec_rand_key P P521 (S s))) as [e| |]; [|exact G..].
    destruct G as [G|(_ & F)]; [|destruct (never_fails F)]. destruct G as (rs' & b & J1 & J2 & J3 & J4). pose proof (recipients_never _ _ _ J3) as G. split.
    - rewrite (components_to _ _ _ _ _ _ _ _ R), <- G. cbn [fst snd]. rewrite (same_to _ _ (after_same _ _ _ _ J3)). destruct (fst a) as [t|]; cbn [makes_ok].
      + destruct J4 as (-> & J4). exact J4.
      + destruct J4 as [->|[J4|J4]]; [reflexivity|destruct b; [exact J4|reflexivity]|destruct (never_fails J4)].
    - exists rs'. split; [exact J1|]. split; [exact J2|]. rewrite <- G. reflexivity.
  Qed.

  (* --- whatever fails, nothing is sent to a recipient that is not trusted --- *)
  Lemma judged_trusted fails n n' : node_judged P fails n true n' -> trusted P n.
  Proof.
    intros [J|(_ & G & _)]; [|left; exact (G eq_refl)]. unfold node_verify_signature_chain in J. unfold trusted. destruct (node_has_valid_cache P n) eqn:NC.
    - right. split; [reflexivity|]. destruct (nd_status n); try discriminate J; reflexivity.
    - left. cbv zeta in J. destruct (chain_validate P (nd_chain n)) as [b c'] eqn:V. cbn [fst snd] in J. destruct b; cbn [negb] in J; [|discriminate J].
      pose proof (judged_valid P fails (nd_chain n) c' (or_introl (eq_sym V))) as (G & _). split; [exact G|].
      pose proof (judged_same P fails _ _ _ (or_introl (eq_sym V))) as (_ & S2). rewrite S2 in J. destruct (keypair_verify_owner _ _ _); [reflexivity|discriminate J].
  Qed.
  Lemma after_trusted fails l : forall l', recipients_after P fails l l' true -> all_trusted P (recipients_value l).
  Proof.
    induction l as [|[n|] l IH]; intros [|[n'|] l'] J; try (exfalso; exact J); [constructor| |].
    - destruct J as (x & (_ & JN) & J). cbn [fst snd] in JN. destruct x; [|destruct J as (D & _); discriminate D]. constructor; [|exact (IH _ J)].
      exists (nd_value n). split; [reflexivity|exact (judged_trusted _ _ _ JN)].
    - destruct J as (D & _). discriminate D.
  Qed.

  (* whatever fails, what comes out is the packet for recipients that are all trusted *)
  Lemma sent_trusted (SH : sha_ok P) (R : rand_ok P) (A : aead_ok P) (C : ctr_ok P) (R1 : scrypt_ok P) (R2 : hkdf_ok P) (SO : sign_ok P) hk pk ek pl rs se version s fails h t rs' h' :
    made_ec_key (key_value ek) -> sendable (py_value pl) -> countable rs ->
    heap_ok h -> in_memory h (arr_cells nd_cells rs) -> all_in_memory h [ck_cells hk; ck_cells pk; key_cells ek; py_cells pl; ch_cells se] ->
    separate [ck_cells hk; ck_cells pk; key_cells ek; py_cells pl; ch_cells se] (arr_cells nd_cells rs) ->
    h_packet_create_from_components P (Some hk) (Some pk) (Some ek) (Some pl) (Some rs) (Some se) version s fails h = Some ((Some t, rs'), h') ->
    all_trusted P (recipients_value (harr_items rs)) /\
    fst (packet_to P (ck_value hk) (ck_value pk) (key_value ek) (py_value pl) (recipients_value (harr_items rs)) (ch_value se) version s) = Val (pt_value t).
  Proof.
    intros MK SD CO OK M MA AP V. pose (secret := fun _ : bytes => False). assert (K : forall l, keeps_secret secret l) by (intros l; split; [intros ? []|intros z _ []]).
    pose proof (use_sound _ _ _ _ _ _ _ _ _ (from_components_rule SH R A C R1 R2 SO hk pk ek pl rs se version s MK SD CO) secret fails h OK M MA AP (K _) (fun _ => K _)) as G.
    rewrite V in G. destruct G as (L & _ & _ & _ & (rs2 & b & _ & _ & J3 & J4)). cbn [fst] in J4. destruct J4 as (-> & J4). split; [exact (after_trusted _ _ _ J3)|exact J4].
  Qed.
  Lemma encoded_trusted (EO : ec_ok P) (GO : gen_ok P) (SH : sha_ok P) (R : rand_ok P) (A : aead_ok P) (C : ctr_ok P) (R1 : scrypt_ok P) (R2 : hkdf_ok P) (SO : sign_ok P) x pl ns s fails h t ns' h' :
    sendable (py_value pl) -> countable ns ->
    heap_ok h -> in_memory h (arr_cells nd_cells ns) -> all_in_memory h [cx_cells x; py_cells pl] -> separate [cx_cells x; py_cells pl] (arr_cells nd_cells ns) ->
    h_ctx_encode_packet P (Some x) (Some pl) (Some ns) s fails h = Some ((Some t, ns'), h') ->
    all_trusted P (recipients_value (harr_items ns)) /\
    encoded_to P (cx_value x) (py_value pl) (recipients_value (harr_items ns)) s = Val (en_value t).
  Proof.
    intros SD CO OK M MA AP V. pose (secret := fun _ : bytes => False). assert (K : forall l, keeps_secret secret l) by (intros l; split; [intros ? []|intros z _ []]).
    pose proof (use_sound _ _ _ _ _ _ _ _ _ (encode_rule EO GO SH R A C R1 R2 SO x pl ns s SD CO) secret fails h OK M MA AP (K _) (fun _ => K _)) as G.
    rewrite V in G. destruct G as (L & _ & _ & _ & G). unfold encodes_right, with_new_keys in G.
    destruct (fst (cipher_key_random P default_cipher s)) as [k| |]; [|destruct G as (G & _); discriminate G..].
    destruct (fst (ec_rand_key P P521 (S s))) as [e| |]; [|destruct G as (G & _); discriminate G..].
    destruct G as [(rs2 & b & _ & _ & J3 & J4)|((G & _) & _)]; [|discriminate G]. cbn [fst] in J4. destruct J4 as (-> & J4). split; [exact (after_trusted _ _ _ J3)|exact J4].
  Qed.
End sending.
