(* Rules for the functions of Model/HeapProtocol.v. *)
From Verif.Base Require Import Bytes Monad.
From Verif.Model Require Import Buffer CString Cipher Ecdsa Kdf Prims Engine Keys Identity Node EcdhCipher Exchange Payload Packet Ctx Proto Heap HeapObjects HeapMessages HeapParse HeapWrite HeapEngine HeapProtocol.
From Verif.Spec Require Import HeapSpec HeapObjectSpec BufferSpec CopySpec HeapParseSpec HeapWriteSpec HeapEngineSpec HeapProtocolSpec.
From Verif.Proofs Require Import BufferFacts HeapFacts HeapObjectFacts HeapMessageFacts HeapCtxFacts HeapParseFacts HeapWriteFacts HeapEngineFacts HeapKdfFacts.
From Verif.Proofs Require CopyFacts ParserFacts.
From Coq Require Import Permutation ZifyBool ZifyNat ZifyN.
Local Open Scope N_scope.

Definition or_rule {T V} (cells : T -> list cell) (value : T -> V) (args : list (list cell)) (pure : res V) (worse : V -> Prop)
  (public exposed : list bytes) (untested : list ctype) (leak : schedule -> Prop) (op : H (option T)) : Prop :=
  forall secret (U W : Prop) fails h (Q : option T -> heap -> Prop),
    (forall n ty, In ty untested -> fails n ty = true -> U) -> (pure = UB -> U) -> (leak fails -> W) ->
    heap_ok h -> all_in_memory h args -> keeps_secret secret public -> (some_failure fails -> keeps_secret secret exposed) ->
    (forall h1, ext secret W h [] h1 -> pure = Null \/ some_failure fails -> Q None h1) ->
    (forall t h1, ext secret W h (cells t) h1 -> pure = Val (value t) \/ some_failure fails /\ worse (value t) -> Q (Some t) h1) ->
    wp U fails op h Q.
Lemma or_call {T V} (cells : T -> list cell) (value : T -> V) args pure worse public exposed untested leak op :
  or_rule cells value args pure worse public exposed untested leak op ->
  forall secret (U W : Prop) fails h0 X h (Q : option T -> heap -> Prop),
    (forall n ty, In ty untested -> fails n ty = true -> U) -> (pure = UB -> U) -> (leak fails -> W) ->
    ext secret W h0 X h -> all_in_memory h args -> keeps_secret secret public -> (some_failure fails -> keeps_secret secret exposed) ->
    (forall h1, ext secret W h0 X h1 -> pure = Null \/ some_failure fails -> Q None h1) ->
    (forall t h1, ext secret W h0 (cells t ++ X) h1 -> pure = Val (value t) \/ some_failure fails /\ worse (value t) -> Q (Some t) h1) ->
    wp U fails op h Q.
Proof.
  intros R secret U W fails h0 X h Q HU HB HW E M K KE QN QS. eapply R with (W := W); try eassumption.
  - eapply ext_ok; exact E.
  - intros h1 E1 F. apply QN; [|exact F]. exact (ext_trans _ _ _ _ _ _ _ E E1).
  - intros t h1 E1 F. apply QS; [|exact F]. exact (ext_trans _ _ _ _ _ _ _ E E1).
Qed.
Lemma or_sound {T V} (cells : T -> list cell) (value : T -> V) args pure worse public exposed untested leak op :
  or_rule cells value args pure worse public exposed untested leak op -> performs_or_worse cells value args pure worse public exposed untested leak op.
Proof.
  intros R secret fails h OK M K KE.
  pose (U := pure = UB \/ exists n ty, In ty untested /\ fails n ty = true).
  pose (Q := fun (o : option T) h' => match o with
     | None => exists leaked, (leaked = [] \/ leak fails) /\ grown h leaked h' /\ wiped secret h h' /\ (pure = Null \/ some_failure fails)
     | Some t => exists leaked, (leaked = [] \/ leak fails) /\ grown h (leaked ++ cells t) h' /\ wiped secret h h' /\
          (pure = Val (value t) \/ some_failure fails /\ worse (value t))
     end).
  assert (G : wp U fails op h Q).
  { eapply R with (W := leak fails); try eassumption.
    - intros n ty I F. right. exists n, ty. split; assumption.
    - intros F. left. exact F.
    - auto.
    - intros h1 (L & A & E) F. rewrite app_nil_r in E. destruct (ext0_grown _ _ _ _ E) as (G & B). exists L. repeat (split; [assumption|]). exact F.
    - intros t h1 (L & A & E) F. destruct (ext0_grown _ _ _ _ E) as (G & B). exists L. repeat (split; [assumption|]). exact F. }
  unfold wp in G. destruct (op fails h) as [[[t|] h']|]; exact G.
Qed.
Lemma or_clean {T V} (cells : T -> list cell) (value : T -> V) args pure worse public exposed untested leak op :
  or_rule cells value args pure worse public exposed untested leak op -> ~ leak never -> performs_cleanly cells value args pure public op.
Proof.
  intros R NL secret h OK M K. apply or_sound in R. specialize (R secret never h OK M K (fun F => match never_fails F with end)).
  destruct (op never h) as [[[t|] h']|].
  - destruct R as (L & [->|F] & G & B & VV); [|contradiction]. destruct VV as [VV|(F & _)]; [|destruct (never_fails F)]. rewrite VV. exists t, h'. repeat split; assumption || apply G.
  - destruct R as (L & [->|F] & G & B & VV); [|contradiction]. destruct VV as [VV|F]; [|destruct (never_fails F)]. rewrite VV.
    exists h'. split; [reflexivity|]. split; [apply grown_none; exact G|exact B].
  - destruct R as [R|(n & ty & _ & F)]; [|discriminate F]. rewrite R. reflexivity.
Qed.
Lemma or_hides {T V} (cells : T -> list cell) (value : T -> V) args pure worse public exposed untested leak op :
  or_rule cells value args pure worse public exposed untested leak op -> hides_op args (public ++ exposed) op.
Proof.
  intros R secret fails h OK M K.
  assert (K1 : keeps_secret secret public) by (refine (keeps_sub _ _ _ K _); intros x J; apply in_or_app; left; exact J).
  assert (K2 : keeps_secret secret exposed) by (refine (keeps_sub _ _ _ K _); intros x J; apply in_or_app; right; exact J).
  pose proof (or_sound _ _ _ _ _ _ _ _ _ _ R secret fails h OK M K1 (fun _ => K2)) as G.
  destruct (op fails h) as [[[t|] h']|]; [|  |exact I]; destruct G as (l & _ & _ & G & _); exact G.
Qed.
(* copies of objects the library makes *)
Lemma copy_op {T V} (cells : T -> list cell) (value : T -> V) rel made public untested copy t :
  copy_rule cells value (fun v => v) rel made public untested false false copy -> made (value t) ->
  op_rule cells value [cells t] (Val (value t)) (public (value t)) [] untested never_leaks_op (copy (Some t)).
Proof.
  intros (_ & R) MD secret U W fails h Q HU HB HW OK M K KE QN QS. apply all_cons in M. destruct M as (M & _).
  eapply R with (W := W) (D := False) (h0 := h) (X := []); [exact HU|discriminate|discriminate|apply ext_start; exact OK|exact M|exact K| |].
  - intros h1 E1 F. apply QN; [exact E1|right; exact (F MD)].
  - intros t' h1 E1 _ [V1|[]]. rewrite app_nil_r in E1. apply QS; [exact E1|]. rewrite V1. reflexivity.
Qed.
Lemma copy_or {T V} (cells : T -> list cell) (value : T -> V) rel made public untested leaky lossy copy t :
  copy_rule cells value (fun v => v) rel made public untested leaky lossy copy -> made (value t) ->
  or_rule cells value [cells t] (Val (value t)) (rel (value t)) (public (value t)) [] untested some_failure (copy (Some t)).
Proof.
  intros (_ & R) MD secret U W fails h Q HU HB HW OK M K KE QN QS. apply all_cons in M. destruct M as (M & _).
  eapply R with (W := W) (D := some_failure fails) (h0 := h) (X := []); [exact HU|intros _ F; exact (HW (F MD))|intros _ F; exact (F MD)|apply ext_start; exact OK|exact M|exact K| |].
  - intros h1 E1 F. apply QN; [exact E1|right; exact (F MD)].
  - intros t' h1 E1 RL G. rewrite app_nil_r in E1. apply QS; [exact E1|]. destruct G as [G|G]; [left; rewrite G; reflexivity|right; split; assumption].
Qed.
Ltac begin :=
  intros secret U W fails h Q HU HB HW OK M K KE QN QS; pose proof (ext_start secret W h OK) as E; pose proof (keeps_none _ _ K) as K0;
  repeat match goal with
  | M : all_in_memory _ (_ :: _) |- _ => let M1 := fresh "M" in apply all_cons in M; destruct M as (M1 & M)
  | M : all_in_memory _ [] |- _ => clear M
  end.
(* the parts of an object: the first level of [cells] *)
Ltac parts M cells := let C := fresh "MP" in pose proof M as C; unfold cells in C; memory.
Ltac argument ::=
  match goal with
  | |- in_memory _ [] => apply in_memory_nil
  | |- in_memory _ (oc _ None) => apply in_memory_nil
  | |- in_memory _ (oc ?c (Some ?t)) => change (oc c (Some t)) with (c t); argument
  | |- in_memory _ _ => assumption
  | E : ext _ _ _ _ ?h |- in_memory ?h ?cs => first [eapply source_in_memory; [exact E|eassumption]|pull E cs; exact (made_in_memory _ _ _ _ _ _ E)]
  end.
Ltac call R ::=
  wstep || idtac;
  at_heap ltac:(fun E => let E' := fresh "E" in let h := fresh "h" in let N := fresh "N" in let F := fresh "F" in let V := fresh "V" in
    lazymatch type of E with ext _ ?W _ _ _ =>
    eapply (op_call _ _ _ _ _ _ _ _ _ R) with (W := W); [try untested_tac| |leak_tac|exact E|arguments|try keep_tac|let F := fresh "FE" in intros F; try keep_tac|
      intros h E' [N|F]; clear E|intros ? h E' V; clear E] end).
Ltac callo R :=
  wstep || idtac;
  at_heap ltac:(fun E => let E' := fresh "E" in let h := fresh "h" in let N := fresh "N" in let F := fresh "F" in let V := fresh "V" in
    lazymatch type of E with ext _ ?W _ _ _ =>
    eapply (or_call _ _ _ _ _ _ _ _ _ _ R) with (W := W); [try untested_tac| |leak_tac|exact E|arguments|try keep_tac|let F := fresh "FE" in intros F; try keep_tac|
      intros h E' [N|F]; clear E|intros ? h E' V; clear E] end).
(* the parts of a made object in the present heap *)
Ltac inside t cells :=
  at_heap ltac:(fun E => pull E (cells t); let G := fresh "MI" in pose proof (made_in_memory _ _ _ _ _ _ E) as G; unfold cells in G; memory).
Ltac live ::=
  match goal with
  | |- _ => eassumption
  | E : ext _ _ ?h0 _ ?h, M : mem ?h0 ?a = Some _ |- mem ?h ?a = Some _ => exact (ext_source _ _ _ _ _ _ _ E M)
  | E : ext _ _ _ _ ?h |- mem ?h (b_addr ?b) = Some _ => pull E (buf_cells b); exact (buf_live _ _ _ _ _ _ E)
  | E : ext _ _ _ _ ?h |- mem ?h ?a = Some _ => pull E (struct_cell a); exact (ext_live _ _ _ _ _ _ _ E)
  end.
Ltac there ::= match goal with QS : forall t h1, ext _ _ _ _ h1 -> _ -> ?Q (Some t) h1, E : ext _ _ _ _ ?h |- ?Q (Some _) ?h =>
  apply QS; [eapply ext_perm; [|exact E]; first [solve [solve_perm]|solve [unfold ck_cells, ex_cells, km_cells, kx_cells, pt_cells, pa_cells, de_cells, cp_cells;
    cbn [hck_addr hck_data hex_addr hex_local hkm_addr hkm_salt hkm_info hkx_addr hkx_id hkx_text hpt_addr hpt_content hpt_sig hpa_addr hpa_set hpa_exchange hpa_payload
         hde_addr hde_payload hde_key hcp_addr hcp_packet hcp_sender hcp_parse cells_opt oc]; solve_perm]]|] end.
Lemma buffer_copy_op b : op_rule buf_cells b_bytes [buf_cells b] (lift (buffer_create (b_bytes b))) [] [] [] never_leaks_op (h_buffer_copy (Some b)).
Proof.
  begin. copy b.
  - gone. left. rewrite N. reflexivity.
  - gone. right. sfailed.
  - there. rewrite V, B. reflexivity.
Qed.
Lemma cipher_key_create_op c b : blen (b_bytes b) = key_len c -> forall secret (U W : Prop) fails h0 X h (Q : option hck -> heap -> Prop),
  (forall n ty, In ty [T_cipher_key] -> fails n ty = true -> U) -> ext secret W h0 (buf_cells b ++ X) h ->
  (forall k h1, ext secret W h0 (ck_cells k ++ X) h1 -> ck_value k = {| ck_cipher := c; ck_data := b_bytes b |} -> Q (Some k) h1) ->
  wp U fails (h_cipher_key_create c (Some b)) h Q.
Proof.
  intros L secret U W fails h0 X h Q HU E QS. unfold h_cipher_key_create. wstep. wstep. rewrite L, N.eqb_refl. wstep. wstep; [used|]. wstep. apply QS; [|reflexivity].
  unfold ck_cells. cbn [hck_addr hck_data]. eapply ext_perm; [|exact E0]. solve_perm.
Qed.

Section ecdh.
  Context (P : prims).
  Lemma key_len_ok c : size_ok (key_len c) = true.
  Proof. destruct c; reflexivity. Qed.
  Lemma hkdf_internal_output (R : hkdf_ok P) ikm salt info d n e k : hkdf_internal P ikm salt info d n e = Some k -> blen k = n.
  Proof.
    unfold hkdf_internal. destruct ikm as [p|]; [|discriminate]. repeat match goal with |- (if ?x then None else _) = _ -> _ => destruct x; [discriminate|] end.
    destruct e; apply R.
  Qed.
  Lemma hkdf_output (R : hkdf_ok P) m p k : ka_kind (km_algo m) = KDF_HMAC_SHA2 -> kdf_algo_hash P m p = Val k -> blen k = ka_output_size (km_algo m).
  Proof.
    intros KK. unfold kdf_algo_hash. rewrite KK. intros V. apply lift_val in V. revert V. unfold hkdf_generate_hash, hkdf, hkdf_expand. cbv zeta.
    repeat match goal with |- (if ?x then _ else _) = _ -> _ => destruct x; [apply (hkdf_internal_output R)|] end. discriminate.
  Qed.
  Lemma hkdf_defined m p : ka_kind (km_algo m) = KDF_HMAC_SHA2 -> kdf_algo_hash P m p <> UB.
  Proof. intros KK. unfold kdf_algo_hash. rewrite KK. intros V. exact (lift_ub _ V). Qed.
  Definition sized (c : cipher) (k : kdf_meta) : kdf_meta := {| km_algo := with_output_size (km_algo k) (key_len c); km_salt := km_salt k; km_info := km_info k |}.
  Lemma sized_made c k : ka_kind (km_algo k) = KDF_HMAC_SHA2 -> made_kdf_meta k -> made_kdf_meta (sized c k).
  Proof.
    intros KK (A & B & D). split; [exact A|]. split; [exact B|]. unfold sized. cbn [km_algo km_salt km_info]. unfold with_output_size. cbn [ka_kind]. rewrite KK in *. exact D.
  Qed.
  Lemma agree_eq (R : hkdf_ok P) x r k : made_kdf_meta k -> ecdh_gen_cipher_key P x (Some r) (Some k) =
    if negb (kdf_kind_eqb (ka_kind (km_algo k)) KDF_HMAC_SHA2) then Null
    else match gen_shared_secret P (Some (ex_local x)) (Some r) with
         | None => Null
         | Some s => match kdf_algo_hash P (sized (ex_cipher x) k) s with Val d => Val {| ck_cipher := ex_cipher x; ck_data := d |} | Null => Null | UB => UB end
         end.
  Proof.
    intros MD. unfold ecdh_gen_cipher_key. destruct (negb _) eqn:KK; [reflexivity|]. assert (K1 : ka_kind (km_algo k) = KDF_HMAC_SHA2) by (destruct (ka_kind (km_algo k)); [discriminate KK..|reflexivity]).
    cbv zeta. fold (sized (ex_cipher x) k). destruct (gen_shared_secret P (Some (ex_local x)) (Some r)) as [s|]; [|reflexivity]. cbn [lift rbind].
    rewrite (perform_kdf_meta_eq _ _ _ (sized_made _ _ K1 MD)). destruct (kdf_algo_hash P (sized (ex_cipher x) k) s) as [d| |] eqn:D; [|reflexivity..].
    cbn [rbind kr_hash]. pose proof (hkdf_output R (sized (ex_cipher x) k) _ _ K1 D) as L. cbn [sized km_algo with_output_size ka_output_size] in L.
    unfold buffer_copy, buffer_create. rewrite L, key_len_ok. cbn [lift rbind]. unfold cipher_key_create. rewrite L, N.eqb_refl. reflexivity.
  Qed.
  Lemma ecdh_ctx_create_rule crv c s : op_rule ex_cells ex_value [] (fst (ecdh_ctx_create P crv c s)) [] [] [T_openssl; T_ec_key] never_leaks_op (h_ecdh_ctx_create P crv c s).
  Proof.
    begin. unfold h_ecdh_ctx_create, ecdh_ctx_create in *. unfold mbind in *. call (ec_rand_key_rule P crv s).
    - intros V. apply HB. destruct (ec_rand_key P crv s) as [[k| |] s1]; try discriminate V. reflexivity.
    - wstep. gone. left. destruct (ec_rand_key P crv s) as [[k| |] s1]; try discriminate N. reflexivity.
    - wstep. gone. right. exact F.
    - assert (V2 : fst (match ec_rand_key P crv s with (Val k, s1) => mlift (ecdh_ctx_create_key (Some k) c) s1 | (Null, s1) => (Null, s1) | (UB, s1) => (UB, s1) end) =
                   Val {| ex_local := key_value t; ex_cipher := c |}).
      { destruct (ec_rand_key P crv s) as [[k| |] s1]; try discriminate V. cbn [fst] in V. injection V as ->. reflexivity. }
      rewrite V2 in *. wstep. unfold h_ecdh_ctx_create_key. wstep. wstep.
      + wstep. drop ec_key_destroy_rule t; [exact K0|]. gone. right. sfailed.
      + wstep. wstep. there. reflexivity.
  Qed.
  Lemma ecdh_gen_cipher_key_rule (R2 : hkdf_ok P) (R1 : scrypt_ok P) x r m (MM : if_set made_kdf_meta (option_map km_value m)) :
    op_rule ck_cells ck_value [ex_cells x; oc key_cells r; oc km_cells m] (ecdh_gen_cipher_key P (ex_value x) (option_map key_value r) (option_map km_value m))
      (km_infos (option_map km_value m)) (agree_exposed P (ex_value x) (option_map key_value r) (option_map km_value m)) [T_cipher_key] some_failure
      (h_ecdh_gen_cipher_key P x r m).
  Proof.
    begin. unfold h_ecdh_gen_cipher_key. destruct r as [r|]; [|wstep; gone; left; reflexivity]. destruct m as [k|]; [|wstep; gone; left; reflexivity].
    unfold agree_exposed, agreed in KE. cbn [option_map oc] in *. pose proof (MM _ eq_refl) as MD. rewrite (agree_eq R2 _ _ _ MD) in *.
    destruct k as [ka kal ks ki]. unfold km_value in *. cbn [hkm_addr hkm_algo hkm_salt hkm_info km_salt km_algo km_info km_infos km_salts] in *.
    parts M0 ex_cells. parts M2 km_cells. cbn [hkm_addr hkm_salt hkm_info] in *. change (cells_opt buf_cells) with (oc buf_cells) in *.
    wstep. wstep. destruct (negb (kdf_kind_eqb (ka_kind kal) KDF_HMAC_SHA2)) eqn:KK; [wstep; gone; left; reflexivity|].
    assert (K1 : ka_kind kal = KDF_HMAC_SHA2) by (destruct (ka_kind kal); [discriminate KK..|reflexivity]). clear KK.
    wstep. wstep. cbn [ex_value ex_local ex_cipher] in *. wstep. call (gen_shared_secret_rule P (Some (hex_local x)) (Some r)); cbn [option_map] in *.
    - intros V. destruct (lift_ub _ V).
    - apply lift_null in N. rewrite N in *. wstep. gone. left. reflexivity.
    - wstep. gone. right. exact F.
    - apply lift_val in V. rewrite V in *. clear V.
      assert (MS : made_kdf_meta (meta_of (with_output_size kal (key_len (hex_cipher x))) ks ki)) by exact (sized_made (hex_cipher x) {| km_algo := kal; km_salt := option_map b_bytes ks; km_info := option_map b_bytes ki |} K1 MD).
      change (sized (hex_cipher x) {| km_algo := kal; km_salt := option_map b_bytes ks; km_info := option_map b_bytes ki |})
        with (meta_of (with_output_size kal (key_len (hex_cipher x))) ks ki) in *.
      assert (HW1 : kdf_leak (with_output_size kal (key_len (hex_cipher x))) (b_bytes t) fails -> W).
      { intros [F|(F & _)]; [exact (HW F)|]. cbn [with_output_size ka_kind] in F. congruence. }
      assert (HP : hash_public (with_output_size kal (key_len (hex_cipher x))) (option_map b_bytes ks) (b_bytes t) = []).
      { unfold hash_public. cbn [with_output_size ka_kind]. rewrite K1. reflexivity. }
      wstep. call (perform_kdf_with_rule P R1 R2 (with_output_size kal (key_len (hex_cipher x))) ks ki t MS).
      + rewrite (perform_kdf_meta_eq _ _ _ MS). intros V. exfalso. revert V. pose proof (hkdf_defined (meta_of (with_output_size kal (key_len (hex_cipher x))) ks ki) (b_bytes t) K1) as ND.
        destruct (kdf_algo_hash P _ (b_bytes t)); [discriminate..|]. intros _. apply ND. reflexivity.
      + rewrite HP. exact K0.
      + refine (keeps_sub _ _ _ (KE FE) _). intros z I. apply in_app_or in I. apply in_or_app. destruct I as [I|I]; [left|right; exact I].
        unfold derived in I. destruct (kdf_algo_hash P _ (b_bytes t)); exact I.
      + wipe t. gone. left. rewrite (perform_kdf_meta_eq _ _ _ MS) in N. destruct (kdf_algo_hash P _ (b_bytes t)); congruence.
      + wipe t. gone. right. exact F.
      + destruct (performed_meta _ _ _ _ MS V) as (KM & KV). rewrite KV in *.
        assert (KR : keeps_secret secret (kr_plain (kr_value t0))).
        { unfold kr_plain. rewrite KM. exact K. }
        change (kr_hash (kr_value t0)) with (b_bytes (hkr_hash t0)) in *.
        pose proof (hkdf_output R2 (meta_of (with_output_size kal (key_len (hex_cipher x))) ks ki) _ _ K1 KV) as L. cbn [meta_of km_algo with_output_size ka_output_size] in L.
        wstep. inside t0 kr_cells. wstep. wstep. call (buffer_copy_op (hkr_hash t0)).
        * intros V0. destruct (lift_ub _ V0).
        * exfalso. unfold buffer_create in N. rewrite L, key_len_ok in N. discriminate N.
        * wstep. drop kdf_result_destroy_rule t0; [exact KR|]. wstep. wipe t. wstep. gone. right. exact F.
        * apply lift_val in V0. assert (BB : b_bytes t1 = b_bytes (hkr_hash t0)).
          { unfold buffer_create in V0. rewrite L, key_len_ok in V0. congruence. }
          wstep. drop kdf_result_destroy_rule t0; [exact KR|]. wstep. wipe t. wstep.
          at_heap ltac:(fun E => pull E (buf_cells t1); eapply cipher_key_create_op; [rewrite BB; exact L|exact HU|exact E|intros k h9 E9 V9; clear E]).
          wstep. there. rewrite V9, BB. reflexivity.
  Qed.
  Lemma ecdh_cipher_eq x p r k s : fst (ecdh_cipher P x (Some p) (Some r) (Some k) s) =
    match ecdh_gen_cipher_key P x (Some r) (Some k) with Val key => fst (aes256_encrypt P (Some p) None (Some key) None s) | Null => Null | UB => UB end.
  Proof. unfold ecdh_cipher, mbind, mres. destruct (ecdh_gen_cipher_key P x (Some r) (Some k)); reflexivity. Qed.
  Lemma agreed_cipher x r k key : ecdh_gen_cipher_key P x r k = Val key -> ck_cipher key = ex_cipher x.
  Proof.
    unfold ecdh_gen_cipher_key. destruct r as [r|]; [|discriminate]. destruct k as [k|]; [|discriminate]. destruct (negb _); [discriminate|]. cbv zeta.
    destruct (gen_shared_secret P _ _) as [s|]; [|discriminate]. cbn [lift rbind]. destruct (perform_kdf_meta P _ _) as [d| |]; [|discriminate..]. cbn [rbind].
    destruct (buffer_copy _) as [b|]; [|discriminate]. cbn [lift rbind]. unfold cipher_key_create. destruct (negb _); [discriminate|]. intros V. apply lift_val in V. apply Some_inj' in V. subst key. reflexivity.
  Qed.
  Lemma no_iv c fails : iv_too_long c None fails -> False.
  Proof. intros (v & F & _). discriminate F. Qed.
  Lemma ecdh_cipher_rule (R : rand_ok P) (A : aead_ok P) (C : ctr_ok P) (R1 : scrypt_ok P) (R2 : hkdf_ok P) x p r m s (MM : if_set made_kdf_meta (option_map km_value m)) :
    op_rule cr_cells cr_value [ex_cells x; oc buf_cells p; oc key_cells r; oc km_cells m]
      (fst (ecdh_cipher P (ex_value x) (option_map b_bytes p) (option_map key_value r) (option_map km_value m) s))
      (km_infos (option_map km_value m) ++ drawn P s (iv_len (hex_cipher x))) (agree_exposed P (ex_value x) (option_map key_value r) (option_map km_value m))
      (T_cipher_key :: encrypt_untested None) some_failure (h_ecdh_cipher P x p r m s).
  Proof.
    begin. unfold h_ecdh_cipher. destruct p as [p|]; [|wstep; gone; left; reflexivity]. destruct r as [r|]; [|wstep; gone; left; reflexivity].
    destruct m as [m|]; [|wstep; gone; left; reflexivity]. cbn [option_map oc] in *. rewrite ecdh_cipher_eq in *. wstep.
    assert (KI : keeps_secret secret (km_infos (Some (km_value m)))) by (refine (keeps_sub _ _ _ K _); intros z I; apply in_or_app; left; exact I).
    call (ecdh_gen_cipher_key_rule R2 R1 x (Some r) (Some m) MM); cbn [option_map] in *.
    - intros V. rewrite V in HB. apply HB. reflexivity.
    - wstep. gone. left. rewrite N. reflexivity.
    - wstep. gone. right. exact F.
    - pose proof (agreed_cipher _ _ _ _ V) as CC. change (ck_cipher (ck_value t)) with (hck_cipher t) in CC. change (ex_cipher (ex_value x)) with (hex_cipher x) in CC. rewrite V in *. wstep.
      assert (KD : keeps_secret secret (encrypt_public P (hck_cipher t) None s)) by (rewrite CC; refine (keeps_sub _ _ _ K _); intros z I; apply in_or_app; right; exact I).
      assert (HL : iv_too_long (hck_cipher t) None fails -> W) by (intros F; destruct (no_iv _ _ F)).
      call (aes256_encrypt_rule P R A C (Some p) None (Some t) None s); cbn [option_map] in *.
      + exact HB.
      + wstep. drop cipher_key_destroy_rule t; [exact K0|]. wstep. gone. left. exact N.
      + wstep. drop cipher_key_destroy_rule t; [exact K0|]. wstep. gone. right. exact F.
      + wstep. drop cipher_key_destroy_rule t; [exact K0|]. wstep. there. exact V0.
  Qed.
  Lemma ecdh_decipher_rule (A : aead_len_ok P) (C : ctr_ok P) (R1 : scrypt_ok P) (R2 : hkdf_ok P) x c r m draft (MM : if_set made_kdf_meta (option_map km_value m)) :
    op_rule buf_cells b_bytes [ex_cells x; oc cr_cells c; oc key_cells r; oc km_cells m]
      (ecdh_decipher P (ex_value x) (option_map cr_value c) (option_map key_value r) (option_map km_value m))
      (km_infos (option_map km_value m)) (agree_exposed P (ex_value x) (option_map key_value r) (option_map km_value m))
      [T_cipher_key] some_failure (h_ecdh_decipher P x c r m draft).
  Proof.
    begin. unfold h_ecdh_decipher. destruct c as [c|]; [|wstep; gone; left; reflexivity]. destruct r as [r|]; [|wstep; gone; left; reflexivity].
    destruct m as [m|]; [|wstep; gone; left; reflexivity]. cbn [option_map oc] in *. parts M0 ex_cells. parts M1 cr_cells. wstep. wstep. wstep. wstep.
    unfold ecdh_decipher in *. change (cr_cipher (cr_value c)) with (hcr_cipher c) in *. change (ex_cipher (ex_value x)) with (hex_cipher x) in *.
    destruct (negb _); [wstep; gone; left; reflexivity|]. wstep.
    call (ecdh_gen_cipher_key_rule R2 R1 x (Some r) (Some m) MM); cbn [option_map] in *.
    - intros V. rewrite V in HB. apply HB. reflexivity.
    - wstep. gone. left. rewrite N. reflexivity.
    - wstep. gone. right. exact F.
    - rewrite V in *. cbn [rbind] in *. wstep. call (aes256_decrypt_rule P A C (Some c) None (Some t) false draft); cbn [option_map] in *.
      + exact HB.
      + wstep. drop cipher_key_destroy_rule t; [exact K0|]. wstep. gone. left. exact N.
      + wstep. drop cipher_key_destroy_rule t; [exact K0|]. wstep. gone. right. exact F.
      + wstep. drop cipher_key_destroy_rule t; [exact K0|]. wstep. there. exact V0.
  Qed.
End ecdh.
