(* Rules for the key derivation functions of Model/HeapEngine.v. *)
From Verif.Base Require Import Bytes Monad.
From Verif.Model Require Import Buffer CString Cipher Ecdsa Kdf Prims Engine Heap HeapObjects HeapMessages HeapParse HeapWrite HeapEngine.
From Verif.Spec Require Import HeapSpec HeapObjectSpec BufferSpec CopySpec HeapParseSpec HeapWriteSpec HeapEngineSpec.
From Verif.Proofs Require Import BufferFacts HeapFacts HeapObjectFacts HeapCtxFacts HeapParseFacts HeapWriteFacts HeapEngineFacts.
From Verif.Proofs Require CopyFacts ParserFacts.
From Coq Require Import Permutation ZifyBool ZifyNat ZifyN.
Local Open Scope N_scope.

Lemma keeps_cons secret public c : keeps_secret secret public -> ~ secret c -> keeps_secret secret [c].
Proof. intros K N. split; [exact (proj1 K)|]. intros x [<-|[]]. exact N. Qed.
Lemma lift_eq {A B} (o : option A) (f : A -> res B) : rbind (lift o) f = match o with Some x => f x | None => Null end.
Proof. destruct o; reflexivity. Qed.
Section kdf.
  Context (P : prims).
  Lemma bcrypt_hash_eq m p : bcrypt_generate_hash P m p =
    if negb (ka_id (km_algo m) =? 5) then Null
    else match km_salt m with
         | None => UB
         | Some salt =>
             if negb ((1 <=? blen salt) && (7 + blen salt <=? 64)) then Null
             else if negb (size_ok (blen p + 1)) then Null
             else if blen p =? 0 then Null
             else if negb (7 + blen salt <? 64) then UB
             else match p_crypt P (until_nul p) (until_nul (bcrypt_header ++ salt)) with
                  | None => Null
                  | Some out => lift (buffer_create (until_nul out))
                  end
         end.
  Proof.
    unfold bcrypt_generate_hash. destruct (negb (ka_id (km_algo m) =? 5)); [reflexivity|]. destruct (km_salt m) as [salt|]; [|reflexivity].
    destruct ((1 <=? blen salt) && (7 + blen salt <=? 64)); cbn [negb]; [|reflexivity].
    destruct (size_ok (blen p + 1)); cbn [negb andb]; [|reflexivity].
    destruct (blen p =? 0) eqn:Z.
    - replace (1 <=? blen p) with false by lia. reflexivity.
    - replace (1 <=? blen p) with true by lia. destruct (7 + blen salt <? 64); cbn [negb]; [|reflexivity].
      rewrite lift_eq. reflexivity.
  Qed.
  Lemma bcrypt_hash_rule a salt info p (K5 : ka_kind a = KDF_BCRYPT) : op_rule buf_cells b_bytes [oc buf_cells salt; buf_cells p]
    (bcrypt_generate_hash P {| km_algo := a; km_salt := option_map b_bytes salt; km_info := info |} (b_bytes p))
    (hash_public a (option_map b_bytes salt) (b_bytes p)) [] [] (fun _ => empty_bcrypt a (b_bytes p)) (h_bcrypt_generate_hash P a salt p).
  Proof.
    rewrite bcrypt_hash_eq. cbn [km_algo km_salt]. start_op. unfold hash_public in K. rewrite K5 in K. unfold h_bcrypt_generate_hash.
    destruct (negb (ka_id a =? 5)); [wstep; gone; left; reflexivity|]. wstep. new_buffer.
    { discriminate N. }
    { wstep. gone. right. sfailed. }
    destruct salt as [x|]; cbn [option_map] in *; [|apply HB; reflexivity]. args. rd.
    destruct (negb ((1 <=? blen (b_bytes x)) && (7 + blen (b_bytes x) <=? 64))); [wstep; release b; [keep_tac|]; wstep; gone; left; reflexivity|].
    wstep. fill b; [rewrite B, blen_zeros; apply blen_fit|].
    match goal with |- context [h_buffer_destroy (Some ?z)] => set (sb := z) in * end.
    assert (KS : keeps_secret secret [b_bytes sb]) by (refine (keeps_sub _ _ _ K _); intros z [<-|[]]; left; reflexivity).
    rd. wstep. new_buffer.
    { release sb; [exact KS|]. gone. left. rewrite N. reflexivity. }
    { release sb; [exact KS|]. gone. right. sfailed. }
    rewrite Z0 in *. cbn [negb] in *. destruct (blen (b_bytes p) =? 0) eqn:ZP.
    { wstep. release sb; [exact KS|]. wstep. apply QN; [|left; reflexivity]. eapply ext_leak; [|eassumption]. apply HW. split; [exact K5|].
      destruct (b_bytes p); [reflexivity|]. unfold blen in ZP. cbn [length] in ZP. lia. }
    wstep. fill b0; [rewrite B0, blen_zeros; unfold blen; rewrite app_length; cbn [length]; lia|].
    match goal with |- context [h_buffer_destroy (Some ?z)] => set (pf := z) in * end.
    assert (KP : keeps_secret secret [b_bytes pf]) by (refine (keeps_sub _ _ _ K _); intros z [<-|[]]; right; left; reflexivity).
    destruct (negb (7 + blen (b_bytes x) <? 64)); [apply HB; reflexivity|].
    destruct (p_crypt P (until_nul (b_bytes p)) (until_nul (bcrypt_header ++ b_bytes x))) as [out|].
    - wstep. release pf; [exact KP|]. wstep. put; wstep; (release sb; [exact KS|]); wstep.
      + gone. left. rewrite N. reflexivity.
      + gone. right. sfailed.
      + there. rewrite V, B1. reflexivity.
    - wstep. release pf; [exact KP|]. wstep. release sb; [exact KS|]. wstep. gone. left. reflexivity.
  Qed.
  Lemma scrypt_hash_eq m p : scrypt_generate_hash P m p =
    if negb (size_ok (ka_output_size (km_algo m))) then Null
    else match km_salt m with
         | None => UB
         | Some salt => lift (p_scrypt P p salt (N.shiftl 1 (N.shiftr (ka_cost (km_algo m)) 16)) (N.land (N.shiftr (ka_cost (km_algo m)) 8) 255)
                                (N.land (ka_cost (km_algo m)) 255) (ka_output_size (km_algo m)))
         end.
  Proof. unfold scrypt_generate_hash. cbv zeta. destruct (size_ok _); reflexivity. Qed.
  Lemma scrypt_hash_rule (R : scrypt_ok P) a salt info p : op_rule buf_cells b_bytes [oc buf_cells salt; buf_cells p]
    (scrypt_generate_hash P {| km_algo := a; km_salt := option_map b_bytes salt; km_info := info |} (b_bytes p))
    [] [] [] never_leaks_op (h_scrypt_generate_hash P a salt p).
  Proof.
    rewrite scrypt_hash_eq. cbn [km_algo km_salt]. start_op. unfold h_scrypt_generate_hash. wstep. new_buffer.
    { wstep. gone. left. rewrite N. reflexivity. }
    { wstep. gone. right. sfailed. }
    rewrite Z in *. cbn [negb] in *. destruct salt as [x|]; cbn [option_map] in *; [|apply HB; reflexivity]. args. rd. rd.
    match goal with |- wp _ _ (match ?x with _ => _ end) _ _ => destruct x as [v|] eqn:D end; cbn [lift] in *.
    - wstep. fill b; [rewrite B, blen_zeros; exact (R _ _ _ _ _ _ _ D)|]. wstep. there. reflexivity.
    - wstep. release b; [keep_tac|]. wstep. gone. left. reflexivity.
  Qed.
  Lemma hkdf_hash_rule (R : hkdf_ok P) a salt info p : op_rule buf_cells b_bytes [oc buf_cells salt; oc buf_cells info; buf_cells p]
    (lift (hkdf_generate_hash P {| km_algo := a; km_salt := option_map b_bytes salt; km_info := option_map b_bytes info |} (b_bytes p)))
    [] [] [] never_leaks_op (h_hkdf_generate_hash P a salt info p).
  Proof.
    start_op. unfold h_hkdf_generate_hash, hkdf_generate_hash, hkdf, hkdf_expand in *. cbv zeta in *. cbn [km_algo km_salt km_info] in *.
    destruct (ka_id a =? 6); [|destruct (ka_id a =? 7); [|destruct (ka_id a =? 8); [|destruct (ka_id a =? 9)]]].
    1-3: match goal with |- wp _ _ (h_hkdf_internal _ _ _ _ ?d ?l ?e) _ _ => call (hkdf_internal_rule P R (Some p) salt info d l e) end;
      [intros V; destruct (lift_ub _ V)|gone; left; exact N|gone; right; sfailed|there; exact V].
    - match goal with |- wp _ _ (h_hkdf_internal _ _ None _ ?d ?l ?e) _ _ => call (hkdf_internal_rule P R (Some p) None info d l e) end;
        [intros V; destruct (lift_ub _ V)|gone; left; exact N|gone; right; sfailed|there; exact V].
    - wstep. gone. left. reflexivity.
  Qed.
  Lemma kdf_algo_hash_rule (R1 : scrypt_ok P) (R2 : hkdf_ok P) a salt info p : op_rule buf_cells b_bytes [oc buf_cells salt; oc buf_cells info; buf_cells p]
    (kdf_algo_hash P {| km_algo := a; km_salt := option_map b_bytes salt; km_info := option_map b_bytes info |} (b_bytes p))
    (hash_public a (option_map b_bytes salt) (b_bytes p)) [] [] (fun _ => empty_bcrypt a (b_bytes p)) (h_kdf_algo_hash P a salt info p).
  Proof.
    unfold kdf_algo_hash, h_kdf_algo_hash. cbn [km_algo]. destruct (ka_kind a) eqn:K5; start_op.
    all: try (call (scrypt_hash_rule R1 a salt (option_map b_bytes info) p); [exact HB|gone; left; exact N|gone; right; sfailed|there; exact V]).
    all: try (call (bcrypt_hash_rule a salt (option_map b_bytes info) p K5); [exact HB|gone; left; exact N|gone; right; sfailed|there; exact V]).
    all: call (hkdf_hash_rule R2 a salt info p); [exact HB|gone; left; exact N|gone; right; sfailed|there; exact V].
  Qed.

  (* meta data the library makes can be copied *)
  Lemma made_parts a s i : made_kdf_meta {| km_algo := a; km_salt := s; km_info := i |} ->
    (forall x, s = Some x -> buffer_create x = Some x) /\ (forall x, i = Some x -> buffer_create x = Some x) /\
    kdf_meta_create a s i = Some {| km_algo := a; km_salt := s; km_info := i |}.
  Proof.
    intros M. pose proof (CopyFacts.kdf_meta_made _ M) as C. destruct M as (A & B & _). cbn [km_salt km_info km_algo] in *.
    split; [|split].
    - intros x X. exact (CopyFacts.real_copy _ (A x X)).
    - intros x X. exact (CopyFacts.real_copy _ (B x X)).
    - unfold kdf_meta_copy in C. cbn [km_salt km_info km_algo] in C. rewrite (CopyFacts.copy_opt_same _ A), (CopyFacts.copy_opt_same _ B) in C. exact C.
  Qed.
  Definition meta_of (a : kdf_algo) (salt info : option hbuf) : kdf_meta := {| km_algo := a; km_salt := option_map b_bytes salt; km_info := option_map b_bytes info |}.
  Lemma copy_opt_wp secret (U W : Prop) fails h0 X h o (Q : option hbuf -> heap -> Prop) :
    ext secret W h0 X h -> in_memory h (oc buf_cells o) -> keeps_secret secret [] -> (forall x, option_map b_bytes o = Some x -> buffer_create x = Some x) ->
    (forall o' h1, ext secret W h0 (oc buf_cells o' ++ X) h1 -> option_map b_bytes o' = option_map b_bytes o \/ o' = None /\ o <> None /\ some_failure fails -> Q o' h1) ->
    wp U fails (h_buffer_copy o) h Q.
  Proof.
    intros E M K V QS. destruct o as [b|].
    - cbn [oc option_map] in *. assert (M1 : mem h (b_addr b) = Some []) by (unfold buf_cells in M; apply in_memory_app in M; apply in_memory_struct; exact (proj1 M)).
      assert (M2 : mem h (b_data b) = Some (b_bytes b)) by (unfold buf_cells in M; apply in_memory_app in M; apply (proj2 (proj2 M)); left; reflexivity).
      eapply buffer_copy_wp; [exact E|exact M1|exact M2|exact K| |].
      + intros h1 E1 [N|F]; [rewrite (V _ eq_refl) in N; discriminate N|]. apply QS; [exact E1|]. right. split; [reflexivity|split; [discriminate|sfailed]].
      + intros b' h1 E1 B _. apply QS; [exact E1|]. left. cbn [option_map]. rewrite B. reflexivity.
    - apply wp_ret. apply QS; [exact E|left; reflexivity].
  Qed.
  Lemma meta_copy_rule a salt info (MM : made_kdf_meta (meta_of a salt info)) : op_rule km_cells km_value [oc buf_cells salt; oc buf_cells info]
    (Val (meta_of a salt info)) [] (opt_list (option_map b_bytes salt)) [] some_failure (h_kdf_meta_copy_of a salt info).
  Proof.
    destruct (made_parts _ _ _ MM) as (RS & RI & CR). start_op. unfold h_kdf_meta_copy_of.
    wstep. eapply copy_opt_wp; [exact E|argument|exact K0|exact RS|]. clear E. intros s h1 E1 VS.
    assert (GO : s = None /\ salt <> None /\ some_failure fails \/ option_map b_bytes s = option_map b_bytes salt) by tauto. clear VS.
    destruct GO as [(-> & NS & F)|VS].
    { destruct salt; [|congruence]. cbn [oc app] in E1. wstep. gone. right. exact F. }
    assert (GO : match salt, s with
                 | Some _, None => wp U fails (hret tt) h1 (fun (_ : unit) (h2 : heap) => Q None h2)
                 | _, _ => wp U fails (i <-? h_buffer_copy info for info else h_buffer_destroy s;; h_kdf_meta_create a s i)%h h1 Q
                 end <-> wp U fails (i <-? h_buffer_copy info for info else h_buffer_destroy s;; h_kdf_meta_create a s i)%h h1 Q).
    { destruct salt, s; try discriminate VS; tauto. }
    apply GO. clear GO. wstep. eapply copy_opt_wp; [exact E1|argument|exact K0|exact RI|]. clear E1. intros i h2 E2 VI.
    assert (GO : i = None /\ info <> None /\ some_failure fails \/ option_map b_bytes i = option_map b_bytes info) by tauto. clear VI.
    destruct GO as [(-> & NS & F)|VI].
    { destruct info; [|congruence]. cbn [oc app] in E2. eapply release_opt_wp; [exact E2|exact K0| |].
      - destruct s; [|exact I]. destruct salt; [|discriminate VS]. injection VS as VS. rewrite VS. apply (KE F). left. reflexivity.
      - intros h3 E3. gone. right. exact F. }
    assert (GO : match info, i with
                 | Some _, None => wp U fails (h_buffer_destroy s) h2 (fun (_ : unit) (h2 : heap) => Q None h2)
                 | _, _ => wp U fails (h_kdf_meta_create a s i) h2 Q
                 end <-> wp U fails (h_kdf_meta_create a s i) h2 Q).
    { destruct info, i; try discriminate VI; tauto. }
    apply GO. clear GO. unfold meta_of in *. rewrite <- VS, <- VI in *. clear RS RI KE MM M0 M1 VS VI salt info.
    assert (MK : wp U fails (x <-? alloc T_kdf_meta [] else hret tt ;; hret (Some {| hkm_addr := x; hkm_algo := a; hkm_salt := s; hkm_info := i |}))%h h2 Q).
    { wstep. wstep.
      - assert (F : some_failure fails) by sfailed. wstep. apply QN; [|right; exact F]. apply HW in F. do 2 (eapply ext_leak; [exact F|]). exact E.
      - wstep. apply QS; [|reflexivity]. unfold km_cells. cbn [hkm_addr hkm_salt hkm_info]. change (cells_opt buf_cells) with (oc buf_cells). eapply ext_perm; [|exact E]. solve_perm. }
    unfold h_kdf_meta_create. unfold kdf_meta_create in CR. cbv zeta in *. destruct (ka_kind a).
    1,2: destruct s as [x|]; [|discriminate CR]; cbn [option_map oc] in *; wstep; pull E2 (buf_cells x);
         pose proof (new_bytes _ _ _ _ _ _ E2) as BX; eapply wp_touch; [exact (proj1 BX)|]; destruct (blen (b_bytes x) =? ka_salt_size a); [exact MK|discriminate CR].
    destruct s, i; try exact MK. discriminate CR.
  Qed.

  Lemma perform_kdf_meta_eq m p : made_kdf_meta m -> perform_kdf_meta P (Some m) (Some p) =
    match kdf_algo_hash P m p with Val h => Val {| kr_meta := m; kr_hash := h |} | Null => Null | UB => UB end.
  Proof. intros M. unfold perform_kdf_meta. destruct (kdf_algo_hash P m p); cbn [rbind]; [|reflexivity..]. rewrite (CopyFacts.kdf_meta_made _ M). reflexivity. Qed.
  Lemma perform_kdf_with_rule (R1 : scrypt_ok P) (R2 : hkdf_ok P) a salt info p (MM : made_kdf_meta (meta_of a salt info)) :
    op_rule kr_cells kr_value [oc buf_cells salt; oc buf_cells info; buf_cells p]
      (perform_kdf_meta P (Some (meta_of a salt info)) (Some (b_bytes p)))
      (hash_public a (option_map b_bytes salt) (b_bytes p)) (derived P (meta_of a salt info) (b_bytes p) ++ opt_list (option_map b_bytes salt)) []
      (kdf_leak a (b_bytes p)) (h_perform_kdf_with P a salt info p).
  Proof.
    rewrite (perform_kdf_meta_eq _ _ MM). start_op. unfold h_perform_kdf_with. wstep.
    assert (HW1 : empty_bcrypt a (b_bytes p) -> W) by (intros G; apply HW; right; exact G).
    assert (HW2 : some_failure fails -> W) by (intros G; apply HW; left; exact G).
    call (kdf_algo_hash_rule R1 R2 a salt info p).
    - fold (meta_of a salt info). intros V. rewrite V in HB. apply HB. reflexivity.
    - fold (meta_of a salt info) in N. wstep. gone. left. rewrite N. reflexivity.
    - wstep. gone. right. sfailed.
    - fold (meta_of a salt info) in V. rewrite V in *. unfold derived in KE. rewrite V in KE. cbn [app] in KE. wstep.
      call (meta_copy_rule a salt info MM).
      + discriminate.
      + refine (keeps_sub _ _ _ (KE _) _); [assumption|]. intros x I. right. exact I.
      + discriminate N.
      + release t; [refine (keeps_sub _ _ _ (KE F) _); intros x [<-|[]]; left; reflexivity|]. gone. right. exact F.
      + unfold h_kdf_result_create. wstep. wstep.
        * assert (F : some_failure fails) by sfailed. wstep. apply QN; [|right; exact F]. assert (w : W) by (apply HW; left; exact F).
          do 2 (eapply ext_leak; [exact w|]). eassumption.
        * wstep. assert (V1 : meta_of a salt info = km_value t0) by congruence. there. unfold kr_value. cbn [hkr_meta hkr_hash]. rewrite <- V1. reflexivity.
  Qed.
  Lemma perform_kdf_meta_rule (R1 : scrypt_ok P) (R2 : hkdf_ok P) m p (MM : if_set made_kdf_meta (option_map km_value m)) :
    op_rule kr_cells kr_value [oc km_cells m; oc buf_cells p]
      (perform_kdf_meta P (option_map km_value m) (option_map b_bytes p))
      (match m, p with Some x, Some y => hash_public (hkm_algo x) (km_salt (km_value x)) (b_bytes y) | _, _ => [] end)
      (match m, p with Some x, Some y => derived P (km_value x) (b_bytes y) ++ opt_list (km_salt (km_value x)) | _, _ => [] end) []
      (match m, p with Some x, Some y => kdf_leak (hkm_algo x) (b_bytes y) | _, _ => never_leaks_op end) (h_perform_kdf_meta P m p).
  Proof.
    start_op. unfold h_perform_kdf_meta. destruct m as [m|]; [|wstep; gone; left; reflexivity]. destruct p as [p|]; [|wstep; gone; left; reflexivity].
    specialize (MM _ eq_refl). cbn [option_map] in *. destruct m as [ma m1 m2 m3]. unfold km_value in *. cbn [hkm_addr hkm_algo hkm_salt hkm_info km_salt] in *. args. unfold km_cells in M0. cbn [hkm_addr hkm_salt hkm_info] in M0. memory.
    wstep.
    wstep. change (cells_opt buf_cells) with (oc buf_cells) in *. call (perform_kdf_with_rule R1 R2 m1 m2 m3 p MM); try assumption.
    - gone. left. assumption.
    - gone. right. assumption.
    - there. assumption.
  Qed.

  (* making a salt *)
  Lemma crypto_random_drawn len s v : fst (crypto_random P len s) = Val v -> p_rand P s len = Some v.
  Proof. unfold crypto_random. destruct (_ <? _); [discriminate|]. destruct (negb _); [discriminate|]. cbn [fst]. intros V. apply lift_val in V. exact V. Qed.
  Lemma generate_salt_eq a s : fst (kdf_algo_generate_salt P a s) =
    match ka_kind a with
    | KDF_BCRYPT =>
        match fst (crypto_random P 16 s) with
        | Val r => match p_gensalt P (ka_cost a) r with
                   | Some setting => lift (buffer_copy_section (firstn (N.to_nat (ka_salt_size a + 7)) setting) 7 (ka_salt_size a))
                   | None => Null
                   end
        | Null => Null
        | UB => UB
        end
    | _ => fst (crypto_random P (ka_salt_size a) s)
    end.
  Proof.
    unfold kdf_algo_generate_salt. destruct (ka_kind a); try reflexivity. unfold bcrypt_generate_salt, mbind. destruct (crypto_random P 16 s) as [[r| |] s1]; [|reflexivity..].
    cbn [fst]. unfold mlift, mres. destruct (p_gensalt P (ka_cost a) r); reflexivity.
  Qed.
  Lemma generate_salt_rule (R : rand_ok P) a s (SF : salt_fits a) : op_rule buf_cells b_bytes []
    (fst (kdf_algo_generate_salt P a s)) (salt_public P a s) [] buffer_kinds never_leaks_op (h_kdf_algo_generate_salt P a s).
  Proof.
    rewrite generate_salt_eq. unfold h_kdf_algo_generate_salt. unfold salt_fits in SF. unfold salt_public. destruct (ka_kind a).
    2,3: intros secret U W fails h Q HU HB HW OK M K KE QN QS; apply (crypto_random_rule P R (ka_salt_size a) s secret U W); try assumption; exact (keeps_none _ _ K).
    specialize (SF eq_refl). start_op. unfold h_bcrypt_generate_salt. call (crypto_random_rule P R 16 s).
    - intros V. apply HB. rewrite V. reflexivity.
    - wstep. gone. left. rewrite N. reflexivity.
    - wstep. gone. right. sfailed.
    - unfold drawn in K. rewrite (crypto_random_drawn _ _ _ V) in K. cbn [opt_list flat_map app] in K. rewrite V in *. rewrite app_nil_r in K.
      assert (K1 : keeps_secret secret [b_bytes t]) by (refine (keeps_sub _ _ _ K _); intros z [<-|[]]; left; reflexivity).
      wstep. new_buffer.
      + rewrite SF in N. discriminate N.
      + release t; [exact K1|]. gone. right. sfailed.
      + rd. destruct (p_gensalt P (ka_cost a) (b_bytes t)) as [setting|].
        * cbv zeta. wstep. fill b; [rewrite B, blen_zeros; apply blen_fit|].
          match goal with |- context [h_buffer_destroy (Some {| b_addr := ?x; b_data := ?y; b_bytes := ?z |})] => set (sb := {| b_addr := x; b_data := y; b_bytes := z |}) in * end.
          assert (K2 : keeps_secret secret [b_bytes sb]) by (refine (keeps_sub _ _ _ K _); intros z [<-|[]]; right; left; reflexivity).
          wstep. release t; [exact K1|]. wstep. pstep; wstep; (release sb; [exact K2|]); wstep.
          -- gone. left. rewrite N. reflexivity.
          -- gone. right. sfailed.
          -- there. rewrite V0. reflexivity.
        * wstep. release t; [exact K1|]. wstep. release b; [keep_tac|]. wstep. gone. left. reflexivity.
  Qed.
  Lemma generated_salt (R : rand_ok P) a s v : fst (kdf_algo_generate_salt P a s) = Val v -> blen v = ka_salt_size a /\ real v /\ In v (salt_public P a s).
  Proof.
    rewrite generate_salt_eq. unfold salt_public, drawn.
    assert (G : fst (crypto_random P (ka_salt_size a) s) = Val v -> blen v = ka_salt_size a /\ real v /\ In v (opt_list (p_rand P s (ka_salt_size a)))).
    { intros V. pose proof (crypto_random_drawn _ _ _ V) as D. pose proof (R _ _ _ D) as L. split; [exact L|]. split; [|rewrite D; left; reflexivity].
      unfold crypto_random in V. destruct (_ <? _); [discriminate V|]. destruct (size_ok (ka_salt_size a)) eqn:Z; [|discriminate V].
      unfold real. rewrite L. unfold size_ok, MAX_BUFFER_SIZE in Z. unfold within_limit, library_limit. lia. }
    destruct (ka_kind a); try exact G. destruct (fst (crypto_random P 16 s)) as [r| |] eqn:D; try discriminate. rewrite (crypto_random_drawn _ _ _ D).
    cbn [opt_list flat_map app]. destruct (p_gensalt P (ka_cost a) r) as [setting|]; [|discriminate]. intros V. apply lift_val in V.
    split; [exact (section_len _ _ _ _ V)|]. split; [|].
    - exact (proj1 (ParserFacts.section_real _ _ _ _ V)).
    - right. rewrite app_nil_r. right. left. unfold buffer_copy_section in V. destruct (section_ok _ _ _); [|discriminate V]. injection V as <-. reflexivity.
  Qed.
  Lemma perform_kdf_eq a p s : fst (perform_kdf P a (Some p) s) =
    match fst (kdf_algo_generate_salt P a s) with
    | Val salt => perform_kdf_meta P (Some {| km_algo := a; km_salt := Some salt; km_info := None |}) (Some p)
    | Null => Null
    | UB => UB
    end.
  Proof. unfold perform_kdf, mbind. destruct (kdf_algo_generate_salt P a s) as [[salt| |] s1]; reflexivity. Qed.
  Lemma salted_made a x : blen x = ka_salt_size a -> real x -> made_kdf_meta {| km_algo := a; km_salt := Some x; km_info := None |}.
  Proof.
    intros L R. split; [intros y G; injection G as <-; exact R|]. split; [discriminate|]. cbn [km_algo km_salt]. destruct (ka_kind a); [exists x; auto..|]. left. discriminate.
  Qed.
  Lemma perform_kdf_rule (R : rand_ok P) (R1 : scrypt_ok P) (R2 : hkdf_ok P) a p s (SF : salt_fits a) :
    op_rule kr_cells kr_value [buf_cells p] (fst (perform_kdf P a (Some (b_bytes p)) s))
      (perform_kdf_public P a (b_bytes p) s) (derived_now P a (b_bytes p) s) buffer_kinds (kdf_leak a (b_bytes p)) (h_perform_kdf P a (Some p) s).
  Proof.
    unfold derived_now, perform_kdf_public. rewrite perform_kdf_eq. start_op. unfold h_perform_kdf.
    assert (K1 : keeps_secret secret (salt_public P a s)) by (refine (keeps_sub _ _ _ K _); intros z I; apply in_or_app; left; exact I).
    call (generate_salt_rule R a s SF).
    - intros V. apply HB. rewrite V. reflexivity.
    - wstep. gone. left. rewrite N. reflexivity.
    - wstep. gone. right. sfailed.
    - destruct (generated_salt R _ _ _ V) as (L & RE & I). rewrite V in *.
      pose proof (salted_made _ _ L RE) as MM. change {| km_algo := a; km_salt := Some (b_bytes t); km_info := None |} with (meta_of a (Some t) None) in *.
      assert (K2 : keeps_secret secret (hash_public a (Some (b_bytes t)) (b_bytes p))) by (refine (keeps_sub _ _ _ K _); intros z J; apply in_or_app; right; exact J).
      assert (K3 : keeps_secret secret [b_bytes t]) by (exact (keeps_one _ _ _ K1 I)).
      wstep. call (perform_kdf_with_rule R1 R2 a (Some t) None p MM).
      + exact HB.
      + rewrite (perform_kdf_meta_eq _ _ MM) in KE. specialize (KE H). unfold derived. destruct (kdf_algo_hash P (meta_of a (Some t) None) (b_bytes p)) as [k| |]; cbn [app option_map opt_list] in *.
        * split; [exact (proj1 K)|]. intros z [<-|[<-|[]]]; [apply (proj2 KE); left; reflexivity|apply (proj2 K1); exact I].
        * exact K3.
        * exact K3.
      + wstep. release t; [exact K3|]. wstep. gone. left. exact N.
      + wstep. release t; [exact K3|]. wstep. gone. right. exact F.
      + wstep. release t; [exact K3|]. wstep. there. exact V0.
  Qed.
  Lemma cipher_key_from_kdf_rule r c : op_rule ck_cells ck_value [kr_cells r] (lift (cipher_key_from_kdf (Some (kr_value r)) c)) [] [] [T_cipher_key] never_leaks_op
    (h_cipher_key_from_kdf r c).
  Proof.
    start_op. unfold kr_cells in M0. memory. unfold h_cipher_key_from_kdf, cipher_key_from_kdf, kr_value in *. cbn [kr_hash] in *. wstep. wstep. rd.
    destruct (negb (blen (b_bytes (hkr_hash r)) =? key_len c)) eqn:L; [wstep; gone; left; reflexivity|]. wstep. unfold buffer_copy in *. copy (hkr_hash r).
    - wstep. gone. left. rewrite N. reflexivity.
    - wstep. gone. right. sfailed.
    - rewrite V in *. unfold h_cipher_key_create, cipher_key_create in *. rewrite L in *. wstep. wstep.
      at_heap ltac:(fun E => pull E (buf_cells b); pose proof (new_bytes _ _ _ _ _ _ E) as Bv). eapply wp_touch; [exact (proj1 Bv)|].
      apply negb_false_iff in L. rewrite B, L. wstep. wstep; [used|]. wstep. wstep. there. unfold ck_value. cbn [hck_cipher hck_data]. rewrite B. reflexivity.
  Qed.

  Lemma performed_state a p s k s1 : ka_kind a = KDF_SCRYPT -> perform_kdf P a (Some p) s = (Val k, s1) -> s1 = S s.
  Proof.
    intros KK. unfold perform_kdf, mbind, kdf_algo_generate_salt. rewrite KK. unfold crypto_random. destruct (_ <? _); [discriminate|]. destruct (negb _); [discriminate|].
    destruct (p_rand P s (ka_salt_size a)); cbn [lift]; [|discriminate]. unfold mres. intros V. injection V as _ <-. reflexivity.
  Qed.
  Lemma performed_info a p s k : fst (perform_kdf P a (Some p) s) = Val k -> kr_plain k = [].
  Proof.
    rewrite perform_kdf_eq. destruct (fst (kdf_algo_generate_salt P a s)) as [x| |]; [|discriminate..]. unfold perform_kdf_meta.
    destruct (kdf_algo_hash P _ p); [|discriminate..]. cbn [rbind]. unfold kdf_meta_copy. cbn [km_salt km_info km_algo copy_opt].
    destruct (buffer_copy (Some x)) as [y|]; [|discriminate]. unfold kdf_meta_create. destruct (ka_kind a).
    1,2: destruct (_ =? _); [|discriminate].
    all: cbn [rbind lift kdf_result_create]; intros V; injection V as <-; reflexivity.
  Qed.
  Definition kdf_wrap (a : kdf_algo) (c : cipher) (v : bytes) (s : nat) (r : res kdf_result) : res bytes :=
    match r with
    | Val k => match fst (aes256_encrypt P (Some v) None (Some {| ck_cipher := c; ck_data := kr_hash k |}) None (S s)) with
               | Val x => match cipher_result_serialize (Some x) with
                          | Some ser => match kdf_meta_serialize (Some (kr_meta k)) with
                                        | Some meta => lift (buffer_concat (Some meta) (Some ser))
                                        | None => Null
                                        end
                          | None => Null
                          end
               | Null => Null
               | UB => UB
               end
    | Null => Null
    | UB => UB
    end.
  Lemma kdf_cipher_eq a c v p s : fst (kdf_cipher P a c (Some v) (Some p) s) =
    if negb (kdf_kind_eqb (ka_kind a) KDF_SCRYPT) || negb (is_authenticated c) || negb (ka_output_size a =? key_len c) then Null
    else kdf_wrap a c v s (fst (perform_kdf P a (Some p) s)).
  Proof.
    unfold kdf_cipher. destruct (_ || _) eqn:C; [reflexivity|]. unfold mbind. destruct (perform_kdf P a (Some p) s) as [[k| |] s1] eqn:D; [|reflexivity..].
    assert (KK : ka_kind a = KDF_SCRYPT) by (destruct (ka_kind a); [discriminate C|reflexivity|discriminate C]).
    rewrite (performed_state _ _ _ _ _ KK D). cbn [fst kdf_wrap]. destruct (aes256_encrypt P _ _ _ _ (S s)) as [[r| |] s2]; [|reflexivity..]. cbn [fst].
    unfold mlift, mres. destruct (cipher_result_serialize (Some r)); [|reflexivity]. cbn [lift]. destruct (kdf_meta_serialize (Some (kr_meta k))); reflexivity.
  Qed.
End kdf.
Lemma write_op {T V} (cells : T -> list cell) (value : T -> V) pure public untested write t :
  write_rule cells value pure never_wrong public untested false write ->
  op_rule buf_cells b_bytes [cells t] (pure (value t)) (public (value t)) [] untested never_leaks_op (write (Some t)).
Proof.
  intros R. start_op. eapply R with (W := W); [exact HU|exact HB|discriminate|exact E|eassumption|exact K| |].
  - intros h1 E1 [N|F]; apply QN; try exact E1; [left; exact N|right; sfailed].
  - intros b h1 E1 [V1|(_ & [])]. apply QS; [|exact V1]. rewrite app_nil_r in E1. exact E1.
Qed.
Lemma parse_op {A T V} (cells : T -> list cell) (value : T -> V) (pure : A -> res V) public untested leak parse a :
  parse_rule cells value pure public untested leak parse ->
  op_rule cells value [] (pure a) (public a) [] untested (fun fails => leak fails a) (parse a).
Proof.
  intros R. start_op. eapply R with (W := W); [exact HU|exact HW|exact E|exact K|exact QN|].
  intros t h1 E1 V1. apply QS; [|exact V1]. rewrite app_nil_r in E1. exact E1.
Qed.
Ltac drop R t :=
  let D := constr:(destroy_has (Destroys := R)) in
  lazymatch type of D with destroy_rule ?cells _ _ _ =>
    at_heap ltac:(fun E => pull E (cells t); let E' := fresh "E" in let h := fresh "h" in
      eapply (proj2 D); [exact E| |intros h E'; clear E]) end.
Section kdf2.
  Context (P : prims).
  Lemma kdf_cipher_rule (R : rand_ok P) (A : aead_ok P) (C : ctr_ok P) (R1 : scrypt_ok P) (R2 : hkdf_ok P) a c v p s :
    op_rule buf_cells b_bytes [buf_cells v; buf_cells p] (fst (kdf_cipher P a c (Some (b_bytes v)) (Some (b_bytes p)) s))
      (kdf_cipher_public P a c (b_bytes v) (b_bytes p) s) (derived_now P a (b_bytes p) s) (T_cipher_result :: buffer_kinds) some_failure
      (h_kdf_cipher P a c (Some v) (Some p) s).
  Proof.
    rewrite kdf_cipher_eq. start_op. unfold h_kdf_cipher. destruct (_ || _) eqn:CC; [wstep; gone; left; reflexivity|].
    assert (KK : ka_kind a = KDF_SCRYPT) by (destruct (ka_kind a); [discriminate CC|reflexivity|discriminate CC]). clear CC.
    assert (SF : salt_fits a) by (intros F; congruence). unfold kdf_cipher_public in K.
    assert (KP : keeps_secret secret (perform_kdf_public P a (b_bytes p) s)).
    { unfold perform_kdf_public, hash_public. rewrite KK. refine (keeps_sub _ _ _ K _). intros z I. apply in_or_app. left. apply in_app_or in I. destruct I as [I|I]; [exact I|].
      destruct (fst (kdf_algo_generate_salt P a s)); cbn [In] in I; destruct I. }
    assert (HW1 : kdf_leak a (b_bytes p) fails -> W) by (intros [F|(F & _)]; [exact (HW F)|congruence]).
    assert (HU1 : forall n ty, In ty buffer_kinds -> fails n ty = true -> U) by (intros n ty I F; apply (HU n ty); [right; exact I|exact F]).
    wstep. call (perform_kdf_rule P R R1 R2 a p s SF).
    - intros V. rewrite V in HB. apply HB. reflexivity.
    - wstep. gone. left. rewrite N. reflexivity.
    - wstep. gone. right. sfailed.
    - rewrite V in *. cbn [kdf_wrap] in *. change (kr_hash (kr_value t)) with (b_bytes (hkr_hash t)) in *. change (kr_meta (kr_value t)) with (km_value (hkr_meta t)) in *.
      assert (KR : keeps_secret secret (kr_plain (kr_value t))) by (rewrite (performed_info _ _ _ _ _ V); exact K0).
      assert (MK : forall X h1, ext secret W h (kr_cells t ++ X) h1 -> mem h1 (hkr_addr t) = Some []).
      { intros X h1 E1. apply made_in_memory in E1. unfold kr_cells in E1. apply in_memory_app in E1. apply in_memory_struct. exact (proj1 E1). }
      assert (MH : forall X h1, ext secret W h (kr_cells t ++ X) h1 -> in_memory h1 (buf_cells (hkr_hash t))).
      { intros X h1 E1. apply made_in_memory in E1. unfold kr_cells in E1. apply in_memory_app in E1. destruct E1 as (_ & E1). apply in_memory_app in E1. exact (proj2 E1). }
      assert (MM : forall X h1, ext secret W h (kr_cells t ++ X) h1 -> in_memory h1 (km_cells (hkr_meta t))).
      { intros X h1 E1. apply made_in_memory in E1. unfold kr_cells in E1. apply in_memory_app in E1. destruct E1 as (_ & E1). apply in_memory_app in E1. exact (proj1 E1). }
      wstep. at_heap ltac:(fun E => eapply wp_touch; [exact (MK _ _ E)|]). wstep.
      assert (KI : keeps_secret secret (encrypt_public P c None (S s))).
      { refine (keeps_sub _ _ _ K _). intros z I. apply in_or_app. right. apply in_or_app. left. exact I. }
      assert (HL : iv_too_long c None fails -> W) by (intros (w & F & _); discriminate F).
      at_heap ltac:(fun E => eapply (op_call _ _ _ _ _ _ _ _ _ (encrypt_with_rule P R A C v None c (hkr_hash t) None (S s))) with (W := W);
        [exact HU|intros VE; cbn [option_map] in VE; rewrite VE in HB; apply HB; reflexivity|exact HL|exact E
        |repeat apply Forall_cons; try apply Forall_nil; [argument|argument|exact (MH _ _ E)|argument]|exact KI|intros _; exact K0| |]; clear E);
        cbn [option_map].
      + intros h1 E1 G. drop kdf_result_destroy_rule t; [exact KR|]. gone. destruct G as [G|G]; [left; rewrite G; reflexivity|right; exact G].
      + intros r h1 E1 VE. rewrite VE in *.
        assert (KC : keeps_secret secret (cr_plain (cr_value r))).
        { refine (keeps_sub _ _ _ K _). intros z I. do 3 (apply in_or_app; right). apply in_or_app. left. exact I. }
        call (write_op cr_cells cr_value _ _ _ _ r cipher_result_write).
        * intros F. destruct (lift_ub _ F).
        * apply lift_null in N. rewrite N in *. wstep. drop cipher_result_destroy_rule r; [exact KC|]. wstep. drop kdf_result_destroy_rule t; [exact KR|]. wstep. gone. left. reflexivity.
        * wstep. drop cipher_result_destroy_rule r; [exact KC|]. wstep. drop kdf_result_destroy_rule t; [exact KR|]. wstep. gone. right. sfailed.
        * apply lift_val in V0. rewrite V0 in *.
          assert (KX : keeps_secret secret [b_bytes t0]).
          { refine (keeps_one _ _ _ K _). do 4 (apply in_or_app; right). left. reflexivity. }
          wstep. drop cipher_result_destroy_rule r; [exact KC|]. wstep. at_heap ltac:(fun E => pull E (kr_cells t); eapply wp_touch; [exact (MK _ _ E)|]). wstep.
          at_heap ltac:(fun E => eapply (op_call _ _ _ _ _ _ _ _ _ (write_op km_cells km_value _ _ _ _ (hkr_meta t) kdf_meta_write)) with (W := W);
            [intros ? ? []|intros F; destruct (lift_ub _ F)|intros []|exact E
            |repeat apply Forall_cons; try apply Forall_nil; pull E (kr_cells t); exact (MM _ _ E)|exact K0|intros _; exact K0| |]; clear E).
          -- intros h6 E6 G. wstep. drop kdf_result_destroy_rule t; [exact KR|]. wstep. release t0; [exact KX|]. wstep. gone.
             destruct G as [G|G]; [left; apply lift_null in G; rewrite G; reflexivity|right; exact G].
          -- intros m h6 E6 VM. apply lift_val in VM. rewrite VM in *.
             assert (KM : keeps_secret secret [b_bytes m]).
             { refine (keeps_one _ _ _ K _). do 2 (apply in_or_app; right). left. reflexivity. }
             wstep. drop kdf_result_destroy_rule t; [exact KR|]. rd. rd. wstep.
             at_heap ltac:(fun E => eapply concat_wp; [exact E|exact K0|intros h9 E9 G; clear E|intros f h9 E9 G; clear E]).
             ++ wstep. release t0; [exact KX|]. wstep. release m; [exact KM|]. wstep. gone. destruct G as [G|G]; [left; rewrite G; reflexivity|right; sfailed].
             ++ wstep. release t0; [exact KX|]. wstep. release m; [exact KM|]. wstep. there. rewrite G. reflexivity.
  Qed.

  Lemma kdf_decipher_eq b p size : kdf_meta_size_with_buffer (Some b) = Val size -> kdf_decipher P (Some b) (Some p) =
    if (size =? 0) || (blen b <=? size) then Null
    else match kdf_meta_create_with_buffer (Some b) with
         | Val m => match perform_kdf_meta P (Some m) (Some p) with
                    | Val k => match cipher_result_from_buffer (Some (skipn (N.to_nat size) b)) with
                               | Val r => match cipher_key_from_kdf (Some k) (cr_cipher r) with
                                          | Some key => aes256_decrypt P (Some r) None (Some key) true
                                          | None => Null
                                          end
                               | Null => Null
                               | UB => UB
                               end
                    | Null => Null
                    | UB => UB
                    end
         | Null => Null
         | UB => UB
         end.
  Proof.
    intros S. unfold kdf_decipher. rewrite S. cbn [rbind]. destruct (_ || _); cbn [negb]; [reflexivity|].
    destruct (kdf_meta_create_with_buffer (Some b)) as [m| |]; [|reflexivity..]. cbn [rbind]. destruct (perform_kdf_meta P (Some m) (Some p)) as [k| |]; [|reflexivity..]. cbn [rbind].
    destruct (cipher_result_from_buffer _) as [r| |]; [|reflexivity..]. cbn [rbind]. destruct (cipher_key_from_kdf (Some k) (cr_cipher r)); reflexivity.
  Qed.
  Lemma parsed_meta b m : kdf_meta_create_with_buffer (Some b) = Val m -> km_info m = None /\ incl (opt_list (km_salt m)) (sections b).
  Proof.
    unfold kdf_meta_create_with_buffer. intros V. invert V. unfold kdf_meta_create in V. 
    assert (G : m = {| km_algo := a1; km_salt := Some a2; km_info := None |}) by (destruct (ka_kind a1); [destruct (negb (blen a2 =? ka_salt_size a1))..|]; congruence).
    subst m. split; [reflexivity|]. intros z [<-|[]]. eapply copy_section_in; eassumption.
  Qed.
  Lemma skipn_section (b : bytes) n : In (skipn n b) (sections b).
  Proof. replace (skipn n b) with (slice b n (length b)); [apply in_sections|]. unfold slice. apply firstn_all2. rewrite skipn_length. lia. Qed.
  Lemma performed_meta m p k : made_kdf_meta m -> perform_kdf_meta P (Some m) (Some p) = Val k -> kr_meta k = m /\ kdf_algo_hash P m p = Val (kr_hash k).
  Proof. intros M V. rewrite (perform_kdf_meta_eq P _ _ M) in V. destruct (kdf_algo_hash P m p); try discriminate V. injection V as <-. split; reflexivity. Qed.
  Lemma kdf_decipher_rule (A : aead_len_ok P) (C : ctr_ok P) (R1 : scrypt_ok P) (R2 : hkdf_ok P) i p draft :
    op_rule buf_cells b_bytes [buf_cells i; buf_cells p] (kdf_decipher P (Some (b_bytes i)) (Some (b_bytes p)))
      (kdf_decipher_public (b_bytes i) (b_bytes p)) (kdf_decipher_derived P (b_bytes i) (b_bytes p)) [T_cipher_result; T_cipher_key]
      (kdf_decipher_leak P (b_bytes i) (b_bytes p)) (h_kdf_decipher P (Some i) (Some p) draft).
  Proof.
    set (b := b_bytes i).
    destruct (kdf_meta_size_with_buffer (Some b)) as [size| |] eqn:SZ; [|destruct (kdf_meta_size_null _ SZ)|destruct (kdf_meta_size_ub _ SZ)].
    rewrite (kdf_decipher_eq _ _ _ SZ). start_op. unfold h_kdf_decipher. rd. fold b. rewrite SZ.
    apply wp_step; [discriminate|discriminate|intros size' S; assert (size' = size) by congruence; subst size'; clear S].
    destruct ((size =? 0) || (blen b <=? size)); [wstep; gone; left; reflexivity|].
    unfold kdf_decipher_public in K. unfold kdf_decipher_derived in KE. unfold kdf_decipher_leak in HW.
    assert (HF : some_failure fails -> W) by (intros F; apply HW; left; exact F).
    assert (KS : keeps_secret secret (sections b)) by (refine (keeps_sub _ _ _ K _); intros z I; apply in_or_app; left; exact I).
    wstep. call (parse_op km_cells km_value _ _ _ _ _ b kdf_meta_parse_rule).
    - intros V. rewrite V in HB. apply HB. reflexivity.
    - wstep. gone. left. rewrite N. reflexivity.
    - wstep. gone. right. sfailed.
    - pose proof (ParserFacts.kdf_made _ _ V) as MM. destruct (parsed_meta _ _ V) as (NI & SI).
      assert (HE : empty_bcrypt (km_algo (km_value t)) (b_bytes p) -> W) by (intros F; apply HW; right; right; eexists; split; [exact V|exact F]).
      assert (HN : forall k, kdf_algo_hash P (km_value t) (b_bytes p) = Val k -> cipher_result_from_buffer (Some (skipn (N.to_nat size) b)) = Null -> W).
      { intros k KH NR. apply HW. right. left. exists (km_value t), k, size. repeat (split; [assumption|]). exact NR. }
      clear HW. rewrite V in *. 
      assert (HK : kdf_leak (hkm_algo t) (b_bytes p) fails -> W) by (intros [F|F]; auto).
      assert (KH : keeps_secret secret (hash_public (hkm_algo t) (km_salt (km_value t)) (b_bytes p))) by (refine (keeps_sub _ _ _ K _); intros z I; apply in_or_app; right; exact I).
      assert (KI : keeps_secret secret (km_plain (km_value t))) by (unfold km_plain; rewrite NI; exact K0).
      assert (M3 : if_set made_kdf_meta (option_map km_value (Some t))) by (intros z Z; injection Z as <-; exact MM).
      wstep. call (perform_kdf_meta_rule P R1 R2 (Some t) (Some p) M3); cbn [option_map] in *.
      + intros F. apply HB. rewrite F. reflexivity.
      + split; [exact (proj1 K)|]. intros z I. apply in_app_or in I. destruct I as [I|I]; [exact (proj2 (KE H) z I)|apply (proj2 KS); apply SI; exact I].
      + wstep. drop kdf_meta_destroy_rule t; [exact KI|]. wstep. gone. left. rewrite N. reflexivity.
      + wstep. drop kdf_meta_destroy_rule t; [exact KI|]. wstep. gone. right. exact F.
      + destruct (performed_meta _ _ _ MM V0) as (KM & KV). rewrite V0 in *.
        assert (KR : keeps_secret secret (kr_plain (kr_value t0))) by (unfold kr_plain; rewrite KM; exact KI).
        wstep. drop kdf_meta_destroy_rule t; [exact KI|].
        set (rest := skipn (N.to_nat size) b) in *.
        assert (KT : keeps_secret secret (sections rest)).
        { refine (keeps_sub _ _ _ KS _). apply sections_sections. apply skipn_section. }
        assert (HU1 : forall n ty, In ty [T_cipher_result] -> fails n ty = true -> U) by (intros n ty [<-|[]] F; apply (HU n T_cipher_result); [left; reflexivity|exact F]).
        assert (HU2 : forall n ty, In ty [T_cipher_key] -> fails n ty = true -> U) by (intros n ty [<-|[]] F; apply (HU n T_cipher_key); [right; left; reflexivity|exact F]).
        wstep. call (parse_op cr_cells cr_value _ _ _ _ _ rest cipher_result_parse_rule).
        * intros F. apply HB. rewrite F. reflexivity.
        * wstep. apply QN; [eapply ext_leak; [exact (HN _ KV N)|eassumption]|]. left. rewrite N. reflexivity.
        * wstep. apply QN; [eapply ext_leak; [exact (HF F)|eassumption]|]. right. exact F.
        * assert (KC : keeps_secret secret (cr_plain (cr_value t1))).
          { refine (keeps_sub _ _ _ KT _). exact (cipher_result_sourced (Some rest) _ V1). }
          rewrite V1 in *. change (cr_cipher (cr_value t1)) with (hcr_cipher t1) in *. wstep.
          at_heap ltac:(fun E => pull E (cr_cells t1); eapply wp_touch; [apply made_in_memory in E; unfold cr_cells in E; apply in_memory_app in E; apply in_memory_struct; exact (proj1 E)|]).
          wstep. call (cipher_key_from_kdf_rule t0 (hcr_cipher t1)).
          -- intros F. destruct (lift_ub _ F).
          -- apply lift_null in N. rewrite N in *. wstep. drop kdf_result_destroy_rule t0; [exact KR|]. wstep. drop cipher_result_destroy_rule t1; [exact KC|]. wstep. gone. left. reflexivity.
          -- wstep. drop kdf_result_destroy_rule t0; [exact KR|]. wstep. drop cipher_result_destroy_rule t1; [exact KC|]. wstep. gone. right. exact F.
          -- apply lift_val in V2. rewrite V2 in *. wstep. drop kdf_result_destroy_rule t0; [exact KR|].
             wstep. call (aes256_decrypt_rule P A C (Some t1) None (Some t2) true draft); cbn [option_map] in *.
             ++ exact HB.
             ++ wstep. drop cipher_result_destroy_rule t1; [exact KC|]. wstep. drop cipher_key_destroy_rule t2; [exact K0|]. wstep. gone. left. exact N.
             ++ wstep. drop cipher_result_destroy_rule t1; [exact KC|]. wstep. drop cipher_key_destroy_rule t2; [exact K0|]. wstep. gone. right. exact F.
             ++ wstep. drop cipher_result_destroy_rule t1; [exact KC|]. wstep. drop cipher_key_destroy_rule t2; [exact K0|]. wstep. there. exact V3.
  Qed.
End kdf2.

(* the operations with arguments that may be NULL *)
Section null.
  Context (P : prims).
  Lemma perform_kdf_null_rule (R : rand_ok P) (R1 : scrypt_ok P) (R2 : hkdf_ok P) a p s (SF : salt_fits a) :
    op_rule kr_cells kr_value [oc buf_cells p] (fst (perform_kdf P a (option_map b_bytes p) s))
      (match p with Some x => perform_kdf_public P a (b_bytes x) s | None => [] end) (match p with Some x => derived_now P a (b_bytes x) s | None => [] end) buffer_kinds
      (match p with Some x => kdf_leak a (b_bytes x) | None => never_leaks_op end) (h_perform_kdf P a p s).
  Proof.
    destruct p as [p|]; [exact (perform_kdf_rule P R R1 R2 a p s SF)|]. start_op. unfold h_perform_kdf. wstep. gone. left. reflexivity.
  Qed.
  Lemma kdf_cipher_null_rule (R : rand_ok P) (A : aead_ok P) (C : ctr_ok P) (R1 : scrypt_ok P) (R2 : hkdf_ok P) a c v p s :
    op_rule buf_cells b_bytes [oc buf_cells v; oc buf_cells p] (fst (kdf_cipher P a c (option_map b_bytes v) (option_map b_bytes p) s))
      (match v, p with Some x, Some y => kdf_cipher_public P a c (b_bytes x) (b_bytes y) s | _, _ => [] end)
      (match v, p with Some x, Some y => derived_now P a (b_bytes y) s | _, _ => [] end) (T_cipher_result :: buffer_kinds) some_failure
      (h_kdf_cipher P a c v p s).
  Proof.
    destruct v as [v|]; [destruct p as [p|]; [exact (kdf_cipher_rule P R A C R1 R2 a c v p s)|]|]; start_op; unfold h_kdf_cipher; wstep; gone; left; reflexivity.
  Qed.
  Lemma kdf_decipher_null_rule (A : aead_len_ok P) (C : ctr_ok P) (R1 : scrypt_ok P) (R2 : hkdf_ok P) i p draft :
    op_rule buf_cells b_bytes [oc buf_cells i; oc buf_cells p] (kdf_decipher P (option_map b_bytes i) (option_map b_bytes p))
      (match i, p with Some x, Some y => kdf_decipher_public (b_bytes x) (b_bytes y) | _, _ => [] end)
      (match i, p with Some x, Some y => kdf_decipher_derived P (b_bytes x) (b_bytes y) | _, _ => [] end) [T_cipher_result; T_cipher_key]
      (match i, p with Some x, Some y => kdf_decipher_leak P (b_bytes x) (b_bytes y) | _, _ => never_leaks_op end) (h_kdf_decipher P i p draft).
  Proof.
    destruct i as [v|]; [destruct p as [p|]; [exact (kdf_decipher_rule P A C R1 R2 v p draft)|]|]; start_op; unfold h_kdf_decipher; wstep; gone; left; reflexivity.
  Qed.
End null.
(* what the rules say *)
Lemma op_hides {T V} (cells : T -> list cell) (value : T -> V) args pure public exposed untested leak op :
  op_rule cells value args pure public exposed untested leak op -> hides_op args (public ++ exposed) op.
Proof.
  intros R secret fails h OK M K.
  assert (K1 : keeps_secret secret public) by (refine (keeps_sub _ _ _ K _); intros x J; apply in_or_app; left; exact J).
  assert (K2 : keeps_secret secret exposed) by (refine (keeps_sub _ _ _ K _); intros x J; apply in_or_app; right; exact J).
  pose proof (op_sound _ _ _ _ _ _ _ _ _ R secret fails h OK M K1 (fun _ => K2)) as G.
  destruct (op fails h) as [[[t|] h']|]; [|  |exact I]; destruct G as (l & _ & _ & G & _); exact G.
Qed.
Lemma answer_hides args pure untested leak op : answer_rule args pure untested leak op -> hides_op args [] op.
Proof.
  intros R secret fails h OK M K. pose proof (answer_sound _ _ _ _ _ R secret fails h OK M K) as G.
  destruct (op fails h) as [[b h']|]; [|exact I]. destruct G as (l & _ & _ & G & _). exact G.
Qed.
Lemma answer_clean args pure untested leak op : answer_rule args pure untested leak op -> ~ leak never -> answers_cleanly args pure op.
Proof.
  intros R NL secret h OK M K. pose proof (answer_sound _ _ _ _ _ R secret never h OK M K) as G.
  destruct (op never h) as [[b h']|].
  - destruct G as (l & [->|F] & G & W & V); [|contradiction]. exists h'. destruct V as [->|(_ & F)]; [|destruct (never_fails F)].
    split; [reflexivity|]. split; [apply grown_none; exact G|exact W].
  - destruct G as (n & ty & _ & F). discriminate F.
Qed.
Lemma answer_strict args pure op : (forall P : Prop, answer_rule args pure [] (fun _ => P) op -> ~ P -> answers_safely args pure op).
Proof.
  intros P R NP secret fails h OK M K. pose proof (answer_sound _ _ _ _ _ R secret fails h OK M K) as G.
  destruct (op fails h) as [[b h']|].
  - destruct G as (l & [->|F] & G & W & V); [|contradiction]. split; [apply grown_none; exact G|]. split; [exact W|exact V].
  - destruct G as (n & ty & [] & _).
Qed.
