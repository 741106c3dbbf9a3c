(* Rules for the functions of Model/HeapSigning.v. *)
From Verif.Base Require Import Bytes Monad.
From Verif.Model Require Import Buffer Cipher Ecdsa Prims Engine Keys Identity Node TransportPacket Heap HeapObjects HeapMessages HeapParse HeapWrite HeapEngine HeapProtocol HeapGenerate HeapContext HeapSigning.
From Verif.Spec Require Import HeapSpec HeapObjectSpec BufferSpec CopySpec HeapParseSpec HeapWriteSpec HeapEngineSpec HeapProtocolSpec HeapGenerateSpec HeapContextSpec HeapSigningSpec.
From Verif.Proofs Require Import BytesFacts BufferFacts SafetyFacts HeapFacts HeapObjectFacts HeapMessageFacts HeapCtxFacts HeapParseFacts HeapWriteFacts HeapEngineFacts HeapKdfFacts HeapProtocolFacts HeapGenerateFacts HeapContextFacts HeapStreamFacts.
From Verif.Proofs Require CodecFacts.
From Coq Require Import Permutation ZifyBool ZifyNat ZifyN.
Local Open Scope N_scope.

Lemma write_or {T V} (cells : T -> list cell) (value : T -> V) pure wrong public untested write t :
  write_rule cells value pure wrong public untested false write ->
  or_rule buf_cells b_bytes [cells t] (pure (value t)) (wrong (value t)) (public (value t)) [] untested never_leaks_op (write (Some t)).
Proof.
  intros R. begin. eapply R with (W := W); [exact HU|exact HB|discriminate|exact E|eassumption|exact K| |].
  - intros h1 E1 [N|F]; apply QN; try exact E1; [left; exact N|right; sfailed].
  - intros b h1 E1 G. rewrite app_nil_r in E1. apply QS; [exact E1|]. destruct G as [G|(F & G)]; [left; exact G|right; split; [sfailed|exact G]].
Qed.

Section transport.
  Context (P : prims).

  Lemma ec_verify_prefix_rule sig key b len : answer_rule [sig_cells sig; key_cells key; buf_cells b]
    (ec_verify P (Some (sig_value sig)) (Some (key_value key)) (Some (firstn (N.to_nat len) (b_bytes b)))) [T_openssl] never_leaks_op (h_ec_verify_prefix P sig key b len).
  Proof.
    start_answer. unfold h_ec_verify_prefix, ec_verify in *. destruct sig as [sa sc sd sb]. destruct key as [ka kc kp kq]. unfold key_value, sig_value in *.
    cbn [option_map hkey_addr hkey_curve hkey_pub hkey_pri ek_curve ek_pub ek_pri hsig_addr hsig_curve hsig_digest hsig_data es_digest es_sig] in *. args.
    cbn [hkey_addr hkey_curve hkey_pub hkey_pri hsig_addr hsig_data] in *. wstep. wstep. wstep. wstep. wstep. wstep; [used|]. rd. wstep.
    call (evp_public_rule P (b_bytes kp)).
    - intros V. destruct (lift_ub _ V).
    - apply lift_null in N. rewrite N in *. wstep. wstep. wstep. said. left. reflexivity.
    - wstep. wstep. wstep. said. right. split; [reflexivity|sfailed].
    - apply lift_val in V. rewrite V in *. rd. rd. unfold h_digest_ctx_destroy. wstep. wstep. wstep. evp_free t. wstep. said. left. reflexivity.
  Qed.

  Lemma sign_eq p c s : fst (tpacket_sign P p c s) =
    match signed_bytes p with
    | None => Val (false, p)
    | Some _ =>
        match packet_signature P p c s with
        | UB => UB
        | Null => Val (false, p)
        | Val g => match ecdsa_result_serialize (Some g) with
                   | None => Val (false, p)
                   | Some m => Val (match tpacket_serialize (with_mac p m) with Some _ => true | None => false end, set_network (with_mac p m) (tpacket_serialize (with_mac p m)))
                   end
        end
    end.
  Proof.
    unfold tpacket_sign, packet_signature, signed_bytes. destruct (ek_curve (id_key (ch_node c))). cbv zeta. destruct (tpacket_serialize _) as [d|]; [|reflexivity].
    rewrite bind_eq. unfold mtry. destruct (identity_sign P _ _ s) as [[g| |] s1]; [|reflexivity..]. cbn [fst snd rbind].
    destruct (ecdsa_result_serialize (Some g)) as [m|]; reflexivity.
  Qed.
  Lemma signature_safe p c s : packet_signature P p c s <> UB.
  Proof. exact (identity_sign_safe P _ _ s). Qed.
  Lemma typed_cells p t : tp_cells (htp_set_type p t) = tp_cells p.
  Proof. reflexivity. Qed.

  Lemma packet_sign_rule (R : sign_ok P) p c s : use_rule [ch_cells c] (tp_cells p) packet_left (sign_right P p (ch_value c) s)
    (packet_sign_public P (tp_value p) (ch_value c) s) [] sign_kinds (packet_sign_leak P p c) (h_tpacket_sign P p c s).
  Proof.
    begin_change. unfold packet_left, sign_right, signs_to in *. rewrite sign_eq in QA. unfold h_tpacket_sign.
    assert (MH : in_memory h (ch_cells c)) by argument. inner c ch_cells. inner (hch_node c) id_cells. inner (hid_key (hch_node c)) key_cells. do 6 wstep.
    parts M0 ch_cells. destruct (hkey_curve (hid_key (hch_node c))). cbv zeta.
    assert (HL : sign_leak P (Some (hid_key (hch_node c))) fails -> W) by (intros F; apply HW; left; exact F).
    assert (KD : forall d, signed_bytes (tp_value p) = Some d -> keeps_secret secret [d]).
    { intros d D. refine (keeps_sub _ _ _ K _). intros z [<-|[]]. unfold packet_sign_public. rewrite D, !in_app_iff. right. left. left. reflexivity. }
    assert (KM : keeps_secret secret (opt_list (tmeta_serialize {| tm_body := tm_body (tp_meta (tp_value p)); tm_mac := MAC_EC_P521 |}))).
    { refine (keeps_sub _ _ _ K _). intros z I. unfold packet_sign_public. rewrite !in_app_iff. left. exact I. }
    assert (KG : forall g, packet_signature P (tp_value p) (ch_value c) s = Val g -> keeps_secret secret [es_sig g]).
    { intros g G. refine (keeps_sub _ _ _ K _). intros z I. unfold packet_sign_public. rewrite G, !in_app_iff. right. right. exact I. }
    rewrite <- (typed_cells p MAC_EC_P521) in E. wstep.
    call (write_op tp_cells tp_value _ _ _ _ (htp_set_type p MAC_EC_P521) tpacket_write).
    - intros Z. destruct (lift_ub _ Z).
    - apply lift_null in N. change (tpacket_serialize (tp_value (htp_set_type p MAC_EC_P521))) with (signed_bytes (tp_value p)) in N. rewrite N in *. wstep.
      apply QA; [exact E0|]. cbn [fst snd]. split; [split; reflexivity|left; reflexivity].
    - wstep. apply QA; [exact E0|]. cbn [fst snd]. split; [split; reflexivity|]. right. split; [exact F|]. left. split; reflexivity.
    - apply lift_val in V. change (tpacket_serialize (tp_value (htp_set_type p MAC_EC_P521))) with (signed_bytes (tp_value p)) in V. specialize (KD _ V). pose proof V as VD. rewrite V in QA. wstep.
      assert (SB : signed_bytes (tp_value p) = Some (b_bytes t)) by exact VD.
      assert (SE : fst (identity_sign P (Some (id_value (hch_node c))) (Some (b_bytes t)) s) = packet_signature P (tp_value p) (ch_value c) s) by (unfold packet_signature; rewrite SB; reflexivity).
      call (identity_sign_rule P R (Some (hch_node c)) (Some t) s); cbn [option_map] in *.
      + rewrite SE. intros Z. destruct (signature_safe _ _ _ Z).
      + rewrite SE in N. rewrite N in QA. wstep. release t; [exact KD|]. wstep. apply QA; [assumption|]. cbn [fst snd]. split; [split; reflexivity|left; reflexivity].
      + wstep. release t; [exact KD|]. wstep. apply QA; [assumption|]. cbn [fst snd]. split; [split; reflexivity|]. right. split; [exact F|]. left. split; reflexivity.
      + rewrite SE in V0. rewrite V0 in QA. specialize (KG _ V0). wstep. release t; [exact KD|]. wstep.
        callo (write_or sig_cells sig_value _ _ _ _ _ t0 ecdsa_result_write).
        * intros Z. destruct (lift_ub _ Z).
        * apply lift_null in N. rewrite N in QA. wstep. drop ecdsa_result_destroy_rule t0; [exact KG|]. wstep. apply QA; [assumption|]. cbn [fst snd]. split; [split; reflexivity|left; reflexivity].
        * wstep. drop ecdsa_result_destroy_rule t0; [exact KG|]. wstep. apply QA; [assumption|]. cbn [fst snd]. split; [split; reflexivity|]. right. split; [exact F|]. left. split; reflexivity.
        * wstep. drop ecdsa_result_destroy_rule t0; [exact KG|].
          assert (VM : ecdsa_result_serialize (Some (sig_value t0)) = Some (b_bytes t1) \/ some_failure fails /\ b_bytes t1 = unpadded (sig_value t0)).
          { destruct V1 as [V1|(F & V1 & _)]; [left; apply lift_val; exact V1|right; split; assumption]. }
          clear V1. set (p1 := htp_set_type (htp_set_mac p (Some t1)) MAC_EC_P521).
          match goal with E : ext _ _ _ _ ?h |- wp _ _ _ ?h _ => rename E into E1 end.
          assert (E2 : ext secret W h0 (tp_cells p1 ++ X) h5).
          { destruct (htp_mac p) as [old|] eqn:D.
            - assert (w : W) by (apply HW; right; left; rewrite D; discriminate).
              apply (ext_leak _ _ _ (buf_cells old)); [exact w|]. eapply ext_perm; [|exact E1]. unfold tp_cells, p1, htp_set_type, htp_set_mac. cbn [htp_addr htp_network htp_body htp_mac]. rewrite D. cbn [cells_opt]. solve_perm.
            - eapply ext_perm; [|exact E1]. unfold tp_cells, p1, htp_set_type, htp_set_mac. cbn [htp_addr htp_network htp_body htp_mac]. rewrite D. cbn [cells_opt]. solve_perm. }
          clear E1.
          assert (NP : forall n h', ext secret W h0 (oc buf_cells n ++ tp_cells p1 ++ X) h' -> ext secret W h0 (tp_cells (htp_set_network p1 n) ++ X) h').
          { intros n h' E3. destruct (htp_network p) as [old|] eqn:D.
            - assert (w : W) by (apply HW; right; right; rewrite D; discriminate).
              apply (ext_leak _ _ _ (buf_cells old)); [exact w|]. eapply ext_perm; [|exact E3]. unfold tp_cells, p1, htp_set_type, htp_set_mac, htp_set_network, oc, cells_opt. cbn [htp_addr htp_network htp_body htp_mac]. rewrite D. destruct n; solve_perm.
            - eapply ext_perm; [|exact E3]. unfold tp_cells, p1, htp_set_type, htp_set_mac, htp_set_network, oc, cells_opt. cbn [htp_addr htp_network htp_body htp_mac]. rewrite D. destruct n; solve_perm. }
          assert (SV : tpacket_serialize (tp_value p1) = tpacket_serialize (with_mac (tp_value p) (b_bytes t1))) by reflexivity.
          wstep. call (write_op tp_cells tp_value _ _ _ _ p1 tpacket_write).
          -- intros Z. destruct (lift_ub _ Z).
          -- apply lift_null in N. wstep. apply QA; [apply (NP None); assumption|]. cbn [fst snd]. split; [split; reflexivity|]. destruct VM as [VM|(F & VM)].
             ++ left. rewrite VM, <- SV, N. reflexivity.
             ++ right. split; [exact F|]. right. exists (sig_value t0), (b_bytes t1). split; [reflexivity|]. split; [right; exact VM|]. left. split; reflexivity.
          -- wstep. apply QA; [apply (NP None); assumption|]. cbn [fst snd]. split; [split; reflexivity|]. right. split; [exact F|]. right. exists (sig_value t0), (b_bytes t1).
             split; [reflexivity|]. split; [destruct VM as [VM|(_ & VM)]; [left|right]; exact VM|]. left. split; reflexivity.
          -- apply lift_val in V1. wstep. apply QA; [apply (NP (Some t2)); assumption|]. cbn [fst snd]. split; [split; reflexivity|]. destruct VM as [VM|(F & VM)].
             ++ left. rewrite VM, <- SV, V1. reflexivity.
             ++ right. split; [exact F|]. right. exists (sig_value t0), (b_bytes t1). split; [reflexivity|]. split; [right; exact VM|]. right. split; [reflexivity|].
                exists (b_bytes t2). split; [rewrite <- SV; exact V1|reflexivity].
  Qed.

  Lemma verify_eq p c : tpacket_verify P p c =
    match tp_mac p with
    | None => (Val false, p, c)
    | Some mac =>
        if negb (tm_mac (tp_meta p) =? MAC_EC_P521) then (Val false, p, c)
        else
          match packet_bytes p with
          | None => (Val false, p, c)
          | Some n =>
              let v := chain_validate P c in
              if negb (fst v) then (Val false, set_network p (Some n), snd v)
              else if blen n <=? blen mac then (Val false, set_network p (Some n), snd v)
              else
                match ecdsa_result_create_from_buffer (Some mac) with
                | Val g => (Val (ec_verify P (Some g) (Some (id_key (ch_node (snd v)))) (Some (firstn (N.to_nat (blen n - blen mac)) n))), set_network p (Some n), snd v)
                | Null => (Val false, set_network p (Some n), snd v)
                | UB => (UB, set_network p (Some n), snd v)
                end
          end
    end.
  Proof.
    unfold tpacket_verify. fold (packet_bytes p). destruct (tp_mac p) as [mac|]; [|reflexivity]. destruct (negb _); [reflexivity|]. destruct (packet_bytes p) as [n|]; [|reflexivity].
    cbv zeta. destruct (chain_validate P c) as [v c']. cbn [fst snd]. destruct v; [|reflexivity]. cbn [negb]. destruct (blen n <=? blen mac); [reflexivity|].
    destruct (ecdsa_result_create_from_buffer (Some mac)); reflexivity.
  Qed.
  Lemma packet_verify_rule (R : sha_ok P) p c : use_rule [] (tp_cells p ++ ch_cells c) verify_left (verify_right P p c)
    (verify_public P (tp_value p) (ch_value c)) [] verify_kinds never_leaks_op (h_tpacket_verify P p c).
  Proof.
    begin_change. unfold verify_left, verify_right, verifies_to in *. rewrite verify_eq in QA. unfold h_tpacket_verify. norm E.
    assert (KM : keeps_secret secret (opt_list (tmeta_serialize (tp_meta (tp_value p))))).
    { refine (keeps_sub _ _ _ K _). intros z I. unfold verify_public. rewrite !in_app_iff. left. exact I. }
    assert (KC : keeps_secret secret (chain_strings P (ch_value c))).
    { refine (keeps_sub _ _ _ K _). intros z I. unfold verify_public. rewrite !in_app_iff. right. left. exact I. }
    assert (KG : forall m g, htp_mac p = Some m -> ecdsa_result_create_from_buffer (Some (b_bytes m)) = Val g -> keeps_secret secret [es_sig g]).
    { intros m g D G. refine (keeps_sub _ _ _ K _). intros z I. unfold verify_public. rewrite !in_app_iff. right. right. unfold tp_value. cbn [tp_mac]. rewrite D. cbn [option_map opt_plain]. rewrite G. exact I. }
    inside p tp_cells. wstep. wstep. clear H H0 H1 H2.
    destruct (htp_mac p) as [mac|] eqn:D.
    2:{ wstep. apply QA; cbn [fst snd]; [norm E; eapply ext_perm; [|exact E]; solve_perm|]. split; [split; [split; reflexivity|]; repeat split; left; reflexivity|]. split; [left; reflexivity|].
        left. unfold tp_value. cbn [tp_mac]. rewrite D. reflexivity. }
    change (tm_mac (tp_meta (tp_value p))) with (tm_mac (htp_meta p)) in QA.
    destruct (negb (tm_mac (htp_meta p) =? MAC_EC_P521)) eqn:T.
    { wstep. apply QA; cbn [fst snd]; [eapply ext_perm; [|exact E]; solve_perm|]. split; [split; [split; reflexivity|]; repeat split; left; reflexivity|]. split; [left; reflexivity|].
      left. unfold tp_value. cbn [tp_mac]. rewrite D. reflexivity. }
    assert (TP : tp_mac (tp_value p) = Some (b_bytes mac)) by (unfold tp_value; cbn [tp_mac]; rewrite D; reflexivity). rewrite TP in QA.
    assert (TT : tm_mac (htp_meta p) = MAC_EC_P521) by lia.
    assert (G : forall n h', packet_kept p (htp_set_network p (Some n)) -> packet_bytes (tp_value p) = Some (b_bytes n) -> ext secret W h0 (tp_cells (htp_set_network p (Some n)) ++ ch_cells c ++ X) h' ->
      wp U fails (v <-! h_chain_validate P c ;;
            if negb (fst v) then hret (false, htp_set_network p (Some n), snd v)
            else
              nb <-! h_bytes n ;;
              mb <-! h_bytes mac ;;
              if blen nb <=? blen mb then hret (false, htp_set_network p (Some n), snd v)
              else
                signature <-! h_ecdsa_result_from_bytes mb ;;
                match signature with
                | None => hret (false, htp_set_network p (Some n), snd v)
                | Some g =>
                    touch (hch_addr (snd v)) ;;;
                    touch (hid_addr (hch_node (snd v))) ;;;
                    return_val <-! h_ec_verify_prefix P g (hid_key (hch_node (snd v))) n (blen nb - blen mb) ;;
                    h_ecdsa_result_destroy (Some g) ;;;
                    hret (return_val, htp_set_network p (Some n), snd v)
                end)%h h' Q).
    { intros n h' PK PB E1. rewrite PB in QA. clear E. set (p' := htp_set_network p (Some n)) in *.
      assert (PV : tp_value p' = set_network (tp_value p) (Some (b_bytes n))) by reflexivity.
      pull E1 (ch_cells c). wstep.
      eapply (chain_validate_rule P R c) with (W := W); [untested_tac|intros []|exact E1|apply Forall_nil|exact KC|intros _; exact K0|].
      intros (b & c') h2 E2 CA. clear E1. pose proof CA as (IP & J). cbn [fst snd] in *. unfold chain_left in E2. cbn [snd] in E2.
      assert (CK : chain_kept P fails c c') by (right; exists b; exact CA).
      pose proof (judged_same P _ _ _ _ J) as (_ & SN).
      destruct b; cbn [negb].
      2:{ wstep. apply QA; cbn [fst snd]; [eapply ext_perm; [|exact E2]; solve_perm|]. split; [exact PK|]. split; [exact CK|].
          destruct J as [J|(F & _)]; [left; rewrite <- J; cbv zeta; cbn [fst snd negb]; rewrite PV; reflexivity|right; split; [exact F|discriminate]]. }
      assert (PC : tp_cells p' = (struct_cell (htp_addr p) ++ buf_cells n ++ buf_cells (htp_body p) ++ buf_cells mac)%list) by (unfold tp_cells, p', htp_set_network; cbn [htp_addr htp_network htp_body htp_mac]; rewrite D; reflexivity).
      pose proof (judged_valid P _ _ _ J) as (CP & _).
      assert (BK : forall h3, ext secret W h0 (ch_cells c' ++ struct_cell (htp_addr p) ++ buf_cells n ++ buf_cells (htp_body p) ++ buf_cells mac ++ X) h3 -> ext secret W h0 ((tp_cells p' ++ ch_cells c') ++ X) h3).
      { intros h3 E3. rewrite PC. eapply ext_perm; [|exact E3]. solve_perm. }
      rewrite PC in E2. norm E2. rd. rd.
      assert (NO : forall h3, ext secret W h0 (ch_cells c' ++ struct_cell (htp_addr p) ++ buf_cells n ++ buf_cells (htp_body p) ++ buf_cells mac ++ X) h3 ->
        (blen (b_bytes n) <=? blen (b_bytes mac)) = true \/ (blen (b_bytes n) <=? blen (b_bytes mac)) = false /\ ecdsa_result_create_from_buffer (Some (b_bytes mac)) = Null \/ some_failure fails -> Q (false, p', c') h3).
      { intros h3 E3 G. apply QA; cbn [fst snd]; [exact (BK _ E3)|]. split; [exact PK|]. split; [exact CK|]. destruct J as [J|(F & _)]; [|right; split; [exact F|discriminate]].
        destruct G as [G|[(G1 & G2)|F]]; [| |right; split; [exact F|discriminate]]; left; rewrite <- J; cbv zeta; cbn [fst snd negb]; [rewrite G|rewrite G1, G2]; rewrite PV; reflexivity. }
      destruct (blen (b_bytes n) <=? blen (b_bytes mac)) eqn:LE; [wstep; apply NO; [eapply ext_perm; [|eassumption]; solve_perm|left; reflexivity]|].
      wstep. call (parse_op sig_cells sig_value _ _ _ _ _ (b_bytes mac) ecdsa_result_parse_rule).
      - intros Z. destruct (CodecFacts.sig_parse_safe _ Z).
      - wstep. apply NO; [eapply ext_perm; [|eassumption]; solve_perm|]. right. left. split; [reflexivity|exact N].
      - wstep. apply NO; [eapply ext_perm; [|eassumption]; solve_perm|]. right. right. sfailed.
      - specialize (KG _ _ eq_refl V). inside c' ch_cells. inner (hch_node c') id_cells. do 4 wstep.
        wstep. eapply (answer_call _ _ _ _ _ (ec_verify_prefix_rule t (hid_key (hch_node c')) n (blen (b_bytes n) - blen (b_bytes mac)))) with (W := W); [untested_tac|intros []|exact E|arguments|exact K0|].
        intros b h3 E3 B. clear E. wstep. drop ecdsa_result_destroy_rule t; [exact KG|]. wstep.
        change (key_value (hid_key (hch_node c'))) with (id_key (ch_node (ch_value c'))) in B.
        apply QA; cbn [fst snd]; [apply BK; eapply ext_perm; [|eassumption]; solve_perm|]. split; [exact PK|]. split; [exact CK|].
        assert (VC : b = true -> vouched P (tp_value p) (ch_value c)).
        { intros ->. destruct B as [B|(B & _)]; [|discriminate B]. split; [exact CP|]. split; [exact TT|]. exists (b_bytes mac), (b_bytes n), (sig_value t).
          split; [exact TP|]. split; [exact PB|]. split; [lia|]. split; [exact V|]. rewrite <- SN. symmetry. exact B. }
        destruct J as [J|(F & _)]; [|right; split; [exact F|exact VC]]. destruct B as [B|(_ & F)]; [|right; split; [exact F|exact VC]].
        left. rewrite <- J. cbv zeta. cbn [fst snd negb]. rewrite V, B, PV. reflexivity. }
    wstep. destruct (htp_network p) as [n|] eqn:DN.
    - wstep. apply G.
      + split; [split; reflexivity|]. split; [reflexivity|]. split; [reflexivity|]. left. rewrite DN. reflexivity.
      + unfold packet_bytes, tp_value. cbn [tp_network]. rewrite DN. reflexivity.
      + eapply ext_perm; [|exact E]. unfold tp_cells, htp_set_network. cbn [htp_addr htp_network htp_body htp_mac]. rewrite DN. solve_perm.
    - assert (PB : packet_bytes (tp_value p) = tpacket_serialize (tp_value p)) by (unfold packet_bytes; unfold tp_value at 1; cbn [tp_network]; rewrite DN; reflexivity). rewrite PB in *.
      call (write_op tp_cells tp_value _ _ _ _ p tpacket_write).
      + intros Z. destruct (lift_ub _ Z).
      + apply lift_null in N. rewrite N in QA. wstep. apply QA; cbn [fst snd]; [eapply ext_perm; [|eassumption]; solve_perm|]. split; [split; [split; reflexivity|]; repeat split; left; reflexivity|]. split; [left; reflexivity|].
        left. reflexivity.
      + wstep. apply QA; cbn [fst snd]; [eapply ext_perm; [|eassumption]; solve_perm|]. split; [split; [split; reflexivity|]; repeat split; left; reflexivity|]. split; [left; reflexivity|].
        right. split; [sfailed|discriminate].
      + apply lift_val in V. apply G.
        * split; [split; reflexivity|]. split; [reflexivity|]. split; [reflexivity|]. right. split; [exact DN|]. exists t. split; [reflexivity|exact V].
        * exact V.
        * eapply ext_perm; [|eassumption]. unfold tp_cells, htp_set_network. cbn [htp_addr htp_network htp_body htp_mac]. rewrite DN. cbn [cells_opt]. solve_perm.
  Qed.

  (* --- when nothing fails --- *)
  Lemma sign_never p c s a : sign_right P p c s never a -> sign_ok_after P p c s a.
  Proof. intros (A & [B|(F & _)]); [split; assumption|destruct (never_fails F)]. Qed.
  Lemma verify_never p c a : verify_right P p c never a -> verify_ok P p c a.
  Proof. intros (A & B & [C|(F & _)]); [split; [exact A|split; assumption]|destruct (never_fails F)]. Qed.
  Lemma packet_sign_fits p c : htp_mac p = None -> htp_network p = None -> (forall q, hkey_pri (hid_key (hch_node c)) = Some q -> p_d2i P (b_bytes q) <> None) ->
    ~ packet_sign_leak P p c never.
  Proof.
    intros A B G [[F|(k & q & K & Q & V)]|[L|L]]; [destruct (never_fails F)| |exact (L A)|exact (L B)]. apply Some_inj' in K. subst k. exact (G q Q V).
  Qed.

  (* --- whatever fails --- *)
  Lemma pure_vouched p c n c' : tpacket_verify P p c = (Val true, n, c') -> vouched P p c.
  Proof.
    rewrite verify_eq. intros V. destruct (tp_mac p) as [mac|] eqn:TM; [|discriminate V]. destruct (negb (tm_mac (tp_meta p) =? MAC_EC_P521)) eqn:TT; [discriminate V|].
    destruct (packet_bytes p) as [b|] eqn:PB; [|discriminate V]. cbv zeta in V. destruct (chain_validate P c) as [v c1] eqn:CV. cbn [fst snd] in V. destruct v; [|discriminate V]. cbn [negb] in V.
    destruct (blen b <=? blen mac) eqn:LE; [discriminate V|]. destruct (ecdsa_result_create_from_buffer (Some mac)) as [g| |] eqn:G; [|discriminate V..].
    assert (J : chain_judged P never c true c1) by (left; symmetry; exact CV). pose proof (judged_valid P _ _ _ J) as (CP & _). pose proof (judged_same P _ _ _ _ J) as (_ & SN). rewrite SN in V.
    split; [exact CP|]. split; [lia|]. exists mac, b, g. split; [exact TM|]. split; [exact PB|]. split; [lia|]. split; [exact G|]. inversion V as [[V1 V2 V3]]. reflexivity.
  Qed.
  Lemma verified_vouched (R : sha_ok P) p c fails h p' c' h' :
    heap_ok h -> in_memory h (tp_cells p ++ ch_cells c) -> h_tpacket_verify P p c fails h = Some ((true, p', c'), h') -> vouched P (tp_value p) (ch_value c).
  Proof.
    intros OK M V. pose (secret := fun _ : bytes => False). assert (K : forall l, keeps_secret secret l) by (intros l; split; [intros ? []|intros z _ []]).
    pose proof (use_sound _ _ _ _ _ _ _ _ _ (packet_verify_rule R p c) secret fails h OK M (Forall_nil _) (Forall_nil _) (K _) (fun _ => K _)) as G.
    rewrite V in G. destruct G as (L & _ & _ & _ & (_ & _ & G)). cbn [fst snd] in G. destruct G as [G|(_ & G)]; [|exact (G eq_refl)]. exact (pure_vouched _ _ _ _ G).
  Qed.
End transport.
