(* Rules for the functions of Model/HeapProtocol.v that read and decode packets for a context. *)
From Verif.Base Require Import Bytes Monad.
From Verif.Model Require Import Buffer CString Cipher Ecdsa Kdf Prims Engine Keys Identity Node EcdhCipher Exchange Payload Packet Ctx Proto Heap HeapObjects HeapMessages HeapParse HeapWrite HeapEngine HeapProtocol.
From Verif.Spec Require Import HeapSpec HeapObjectSpec BufferSpec CopySpec HeapParseSpec HeapWriteSpec HeapEngineSpec HeapProtocolSpec.
From Verif.Proofs Require Import BufferFacts HeapFacts HeapObjectFacts HeapMessageFacts HeapCtxFacts HeapParseFacts HeapWriteFacts HeapEngineFacts HeapKdfFacts HeapProtocolFacts HeapExchangeFacts HeapPacketFacts HeapReadingFacts.
From Verif.Proofs Require CopyFacts ParserFacts BytesFacts CodecFacts.
From Coq Require Import Permutation ZifyBool ZifyNat ZifyN.
Local Open Scope N_scope.

Section decoding.
  Context (P : prims).
  Lemma decode_failure_wp e secret (U W : Prop) fails h0 X h (Q : option hde -> heap -> Prop) : ext secret W h0 X h ->
    (forall h1, ext secret W h0 X h1 -> some_failure fails -> Q None h1) ->
    (forall t h1, ext secret W h0 (de_cells t ++ X) h1 -> de_value t = decode_failure e -> Q (Some t) h1) -> wp U fails (h_decode_failure e) h Q.
  Proof.
    intros E QN QS. unfold h_decode_failure, h_decode_result_create. wstep. wstep; [wstep; apply QN; [exact E0|sfailed]|]. wstep. apply QS; [|reflexivity].
    unfold de_cells. cbn [hde_addr hde_payload hde_key cells_opt]. eapply ext_perm; [|exact E0]. solve_perm.
  Qed.
  Definition decode_tail (pl : option cipher_result) (k : cipher_key) : res decode_result :=
    match payload_create_from_cipher P pl (Some k) with
    | UB => UB
    | Null => Val (decode_failure ERROR_KEY_EXCHANGE_FAILED)
    | Val x => Val (decode_success x k)
    end.
  Lemma decode_tail_wp (A : aead_len_ok P) (C : ctr_ok P) pl k draft secret (U W : Prop) fails h0 X h (Q : option hde -> heap -> Prop) :
    (forall n ty, In ty [T_packet_meta] -> fails n ty = true -> U) -> (decode_tail (option_map cr_value pl) (ck_value k) = UB -> U) ->
    ext secret W h0 (ck_cells k ++ X) h -> in_memory h0 (oc cr_cells pl) ->
    keeps_secret secret (plain_of (of_message pb_payload_unpack payload_fields payload_public) (aes256_decrypt P (option_map cr_value pl) None (Some (ck_value k)) true)) ->
    keeps_secret secret (plain_of py_plain (payload_create_from_cipher P (option_map cr_value pl) (Some (ck_value k)))) ->
    (forall h1, ext secret W h0 X h1 -> some_failure fails -> Q None h1) ->
    (forall t h1, ext secret W h0 (de_cells t ++ X) h1 ->
       decode_tail (option_map cr_value pl) (ck_value k) = Val (de_value t) \/ some_failure fails /\ de_value t = decode_failure ERROR_KEY_EXCHANGE_FAILED -> Q (Some t) h1) ->
    wp U fails (payload <-! h_payload_create_from_cipher P pl (Some k) draft ;;
                match payload with
                | None => h_cipher_key_destroy (Some k) ;;; h_decode_failure ERROR_KEY_EXCHANGE_FAILED
                | Some pl =>
                    d <-? h_decode_result_create E_SUCCESS (Some pl) (Some k) else (h_cipher_key_destroy (Some k) ;;; h_payload_destroy (Some pl)) ;;
                    hret (Some d)
                end)%h h Q.
  Proof.
    intros HU HB E M K KP QN QS. pose proof (keeps_none _ _ K) as K0. unfold decode_tail in *. wstep. call (payload_create_from_cipher_rule P A C pl (Some k) draft); cbn [option_map] in *.
    - intros V. apply HB. rewrite V. reflexivity.
    - wstep. drop cipher_key_destroy_rule k; [exact K0|]. eapply decode_failure_wp; [eassumption|exact QN|]. intros t h9 E9 V. apply QS; [exact E9|]. left. rewrite N, V. reflexivity.
    - wstep. drop cipher_key_destroy_rule k; [exact K0|]. eapply decode_failure_wp; [eassumption|exact QN|]. intros t h9 E9 V. apply QS; [exact E9|]. right. split; assumption.
    - rewrite V in *. cbn [plain_of] in *. unfold h_decode_result_create. wstep. wstep. wstep.
      + wstep. wstep. drop cipher_key_destroy_rule k; [exact K0|]. drop payload_destroy_rule t; [exact KP|]. gone. sfailed.
      + wstep. wstep. apply QS; [|left; reflexivity]. unfold de_cells. cbn [hde_addr hde_payload hde_key cells_opt]. match goal with E : ext _ _ _ _ ?h |- ext _ _ _ _ ?h => eapply ext_perm; [|exact E] end. solve_perm.
  Qed.
  Lemma decode_eq p a dev rk re se set : pa_err a = E_SUCCESS -> pa_status a = SIG_VALID -> pa_set a = Some set ->
    decode_result_from_parse_result P p (Some a) dev (Some rk) re se =
    match exchange_derive_packet_key P se (Some (as_node dev re rk)) (Some (xs_sender set)) (pa_exchange a) None (pt_version p) with
    | UB => UB
    | Null => Val (decode_failure ERROR_KEY_EXCHANGE_FAILED)
    | Val k => decode_tail (pa_payload a) k
    end.
  Proof.
    intros HE HS HT. unfold decode_result_from_parse_result. rewrite HE, HS, HT. cbv zeta. unfold decode_tail, as_node. destruct (exchange_derive_packet_key _ _ _ _ _ _ _) as [k| |]; [|reflexivity..]. cbn [rtry rbind].
    destruct (payload_create_from_cipher _ _ _); reflexivity.
  Qed.
  Lemma decode_result_rule (A : aead_len_ok P) (C : ctr_ok P) (R1 : scrypt_ok P) (R2 : hkdf_ok P) p a dev rk re se draft1 draft2 (MK : if_set made_ec_key (option_map key_value rk)) :
    or_rule de_cells de_value [pt_cells p; oc pa_cells a; buf_cells dev; oc key_cells rk; ch_cells re; oc ch_cells se]
      (decode_result_from_parse_result P (pt_value p) (option_map pa_value a) (b_bytes dev) (option_map key_value rk) (ch_value re) (option_map ch_value se))
      (fun v => v = decode_failure ERROR_KEY_EXCHANGE_FAILED)
      (decode_public P (pt_value p) (option_map pa_value a) (b_bytes dev) (option_map key_value rk) (ch_value re) (option_map ch_value se))
      (decode_exposed P (pt_value p) (option_map pa_value a) (b_bytes dev) (option_map key_value rk) (ch_value re) (option_map ch_value se))
      [T_ec_key; T_cipher_key; T_packet_meta] some_failure (h_decode_result_from_parse_result P p a dev rk re se draft1 draft2).
  Proof.
    begin. unfold h_decode_result_from_parse_result. destruct a as [a|]; [|wstep; apply QN; [exact E|left; reflexivity]]. cbn [oc option_map] in *.
    parts M1 pa_cells. wstep. wstep. 
    destruct (hpa_err a) eqn:HE; try (wstep; apply QN; [exact E|left; unfold decode_result_from_parse_result; destruct (option_map key_value rk); [|reflexivity]; unfold pa_value; cbn [pa_err pa_status]; rewrite HE; reflexivity]).
    destruct (hpa_status a) eqn:HS; try (wstep; apply QN; [exact E|left; unfold decode_result_from_parse_result; destruct (option_map key_value rk); [|reflexivity]; unfold pa_value; cbn [pa_err pa_status]; rewrite HE, HS; reflexivity]).
    destruct rk as [rk|]; [|wstep; apply QN; [exact E|left; reflexivity]]. cbn [oc option_map] in *. specialize (MK _ eq_refl).
    assert (QN' : forall h1, ext secret W h [] h1 -> some_failure fails -> Q None h1) by (intros h1 E1 F; apply QN; [exact E1|right; exact F]).
    destruct (hpa_set a) as [set|] eqn:HT.
    2:{ apply wp_ub. apply HB. unfold decode_result_from_parse_result. unfold pa_value. cbn [pa_err pa_status pa_set]. rewrite HE, HS, HT. reflexivity. }
    rewrite (decode_eq _ _ _ _ _ _ (xs_value set)) in * by (unfold pa_value; cbn [pa_err pa_status pa_set]; first [assumption|rewrite HT; reflexivity]).
    unfold decode_public, decode_exposed in *. change (pa_set (pa_value a)) with (option_map xs_value (hpa_set a)) in *. rewrite HT in *. cbn [option_map cells_opt] in *.
    change (pa_exchange (pa_value a)) with (option_map kx_value (hpa_exchange a)) in *. change (pa_payload (pa_value a)) with (option_map cr_value (hpa_payload a)) in *.
    change (pt_version (pt_value p)) with (hpt_version p) in *. change (xs_sender (xs_value set)) with (key_value (hxs_sender set)) in *.
    match goal with G : in_memory _ (xs_cells set) |- _ => unfold xs_cells in G; memory end. parts M0 pt_cells. wstep. wstep. wstep. wstep. wstep.
    assert (FR : forall h1, ext secret W h [] h1 -> exchange_derive_packet_key P (option_map ch_value se) (Some (as_node (b_bytes dev) (ch_value re) (key_value rk))) (Some (key_value (hxs_sender set))) (option_map kx_value (hpa_exchange a)) None (hpt_version p) = Null \/ some_failure fails ->
      wp U fails (h_decode_failure ERROR_KEY_EXCHANGE_FAILED) h1 Q).
    { intros h1 E1 D. eapply decode_failure_wp; [exact E1|exact QN'|]. intros t h2 E2 V. rewrite app_nil_r in E2. apply QS; [exact E2|]. rewrite V. destruct D as [D|D]; [left; rewrite D; reflexivity|right; split; [exact D|reflexivity]]. }
    destruct se as [se|]; cbn [option_map oc] in *; [|wstep; apply FR; [exact E|left; reflexivity]].
    destruct (hpa_exchange a) as [x|]; cbn [option_map cells_opt] in *; [|wstep; apply FR; [exact E|left; reflexivity]].
    pose proof (key_of_rule _ _ _ _ _ _ _ (derive_with_rule P A C R1 R2 se dev re rk (Some (hxs_sender set)) x None (hpt_version p) draft1 MK)) as RR. cbn [option_map] in RR. rewrite <- derive_key_eq in RR.
    call RR.
    - intros V. apply HB. rewrite V. reflexivity.
    - apply FR; [assumption|left; exact N].
    - apply FR; [assumption|right; assumption].
    - rewrite V in *. cbn [plain_of] in *. at_heap ltac:(fun E => eapply decode_tail_wp with (W := W) (X := []); [exact A|exact C| |exact HB|rewrite app_nil_r; exact E|exact H2| | |exact QN'|]).
      + intros n ty I. apply HU. cbn in I |- *. tauto.
      + refine (keeps_sub _ _ _ K _). intros z I. apply in_or_app. right. apply in_or_app. left. exact I.
      + refine (keeps_sub _ _ _ K _). intros z I. apply in_or_app. right. apply in_or_app. right. exact I.
      + intros t1 h9 E9. rewrite app_nil_r in E9. exact (QS _ _ E9).
  Qed.
  Lemma ctx_decode_packet_rule (A : aead_len_ok P) (C : ctr_ok P) (R1 : scrypt_ok P) (R2 : hkdf_ok P) g q rk draft1 draft2 (MK : if_set made_ec_key (option_map key_value rk)) :
    or_rule de_cells de_value [oc cx_cells g; oc cp_cells q; oc key_cells rk]
      (ctx_decode_packet P (option_map cx_value g) (option_map cp_value q) (option_map key_value rk))
      (fun v => v = decode_failure ERROR_KEY_EXCHANGE_FAILED)
      (match option_map cx_value g, option_map cp_value q with
       | Some x, Some y => decode_public P (cp_packet y) (Some (cp_parse y)) (di_msg_proto_id (cx_dev x)) (option_map key_value rk) (cx_chain x) (Some (cp_sender y))
       | _, _ => [] end)
      (match option_map cx_value g, option_map cp_value q with
       | Some x, Some y => decode_exposed P (cp_packet y) (Some (cp_parse y)) (di_msg_proto_id (cx_dev x)) (option_map key_value rk) (cx_chain x) (Some (cp_sender y))
       | _, _ => [] end)
      [T_ec_key; T_cipher_key; T_packet_meta] some_failure (h_ctx_decode_packet P g q rk draft1 draft2).
  Proof.
    destruct g as [g|]; [|absent h_ctx_decode_packet]. destruct q as [q|]; [|absent h_ctx_decode_packet].
    begin. unfold h_ctx_decode_packet. cbn [oc option_map] in *. parts M0 cx_cells. parts M1 cp_cells. match goal with G : in_memory _ (di_cells _) |- _ => unfold di_cells in G; memory end. do 6 wstep.
    eapply (decode_result_rule A C R1 R2 (hcp_packet q) (Some (hcp_parse q)) (hdi_msg (hcx_dev g)) rk (hcx_chain g) (Some (hcp_sender q)) draft1 draft2 MK) with (W := W);
      [exact HU|exact HB|exact HW|exact OK|arguments|exact K|exact KE|exact QN|exact QS].
  Qed.
  Lemma lookup_plain id hd b r : made_exchange_set hd -> lookup_pure id hd b = Val r -> incl (pa_plain r) (xs_plain hd ++ sections b).
  Proof.
    intros MD. unfold lookup_pure. destruct id as [i|].
    - destruct (exchange_set_find (Some hd) (Some i)) as [x| |] eqn:F; [|intros V; apply Val_inj in V; subst r; intros z []|discriminate].
      destruct (cipher_result_from_buffer (Some b)) as [c| |] eqn:D; intros V; try discriminate V; apply Val_inj in V; subst r; [|intros z []].
      unfold pa_plain. cbn [parse_success pa_set pa_exchange pa_payload opt_plain]. intros z I. apply in_app_iff in I. destruct I as [I|I]; [apply in_or_app; left; exact I|]. apply in_app_iff in I. apply in_or_app. destruct I as [I|I].
      + left. exact (found_plain _ _ _ F (proj2 MD) _ I).
      + right. exact (cipher_result_sourced (Some b) _ D _ I).
    - destruct (cipher_result_from_buffer (Some b)) as [c| |] eqn:D; intros V; try discriminate V; apply Val_inj in V; subst r; [|intros z []].
      unfold pa_plain. cbn [parse_success pa_set pa_exchange pa_payload opt_plain app]. intros z I. apply in_app_iff in I. destruct I as [I|I]; [apply in_or_app; left; exact I|]. apply in_or_app. right. exact (cipher_result_sourced (Some b) _ D _ I).
  Qed.
  Lemma read_plain p id s r : parse_result_from_packet P (gen_header_key P) (Some p) id s = Val r -> incl (pa_plain r) (read_public P (Some p) s).
  Proof.
    destruct s as [s|]; [|intros V; apply Val_inj in V; subst r; intros z []]. rewrite read_eq. unfold read_public. repeat (destruct (negb _); [intros V; apply Val_inj in V; subst r; intros z []|]). unfold unpack_pure.
    destruct (pb_packet_unpack _) as [m|]; [|intros V; apply Val_inj in V; subst r; intros z []]. unfold open_pure.
    destruct (cipher_result_from_buffer (Some (pq_header m))) as [hc| |]; [|intros V; apply Val_inj in V; subst r; intros z []|discriminate]. cbn [plain_of].
    destruct (exchange_set_create_from_cipher _ _ _) as [hd| |] eqn:D; [|intros V; apply Val_inj in V; subst r; intros z []|discriminate]. cbn [plain_of].
    intros V z I. apply lookup_plain in V; [|exact (set_made _ _ _ _ D)]. apply V in I. apply in_app_iff in I. do 3 right. apply in_or_app. right. apply in_or_app. destruct I as [I|I]; [|left; exact I].
    right. apply in_or_app. right. exact I.
  Qed.
  Lemma worse_plain pure v l : read_worse pure v -> (forall r, pure = Val r -> incl (pa_plain r) l) -> incl (pa_plain v) l.
  Proof.
    intros (_ & [(st & e & -> & _)|(r & x & y & V & X & D & ->)]) L; [intros z []|]. specialize (L _ V). intros z I. apply L. unfold pa_plain in *. cbn [pa_set pa_exchange pa_payload opt_plain] in *. rewrite X. cbn [opt_plain].
    apply in_app_iff in I. apply in_or_app. destruct I as [I|I]; [left; exact I|right]. apply in_app_iff in I. apply in_or_app. destruct I as [I|I]; [left; exact (key_exchange_plain_rel _ _ D _ I)|right; exact I].
  Qed.
  Definition read_tail (p : packet) (id : option bytes) (s : option chain) : res ctx_packet :=
    rbind (parse_result_from_packet P (gen_header_key P) (Some p) id s) (fun result =>
    rbind (lift (chain_copy s)) (fun c => lift (ctx_packet_create (Some p) (Some c) (Some result)))).
  Lemma chain_found se secret (U W : Prop) fails h0 X h (Q : option hch -> heap -> Prop) : made_chain (ch_value se) ->
    (forall n ty, In ty [T_ec_key; T_ecdsa_result] -> fails n ty = true -> U) -> (some_failure fails -> W) ->
    ext secret W h0 X h -> in_memory h (ch_cells se) -> keeps_secret secret (ch_copy_plain (ch_value se)) ->
    (forall h1, ext secret W h0 X h1 -> some_failure fails -> Q None h1) ->
    (forall t h1, ext secret W h0 (ch_cells t ++ X) h1 -> ch_value t = ch_value se \/ some_failure fails /\ ch_dropped (ch_value se) (ch_value t) -> Q (Some t) h1) ->
    wp U fails (h_chain_copy (Some se)) h Q.
  Proof.
    intros MD HU HW E M K QN QS. eapply (or_call _ _ _ _ _ _ _ _ _ _ (copy_or _ _ _ _ _ _ _ _ _ se chain_copy_rule MD)) with (W := W); [exact HU|discriminate|exact HW|exact E| |exact K| | |].
    - apply Forall_cons; [exact M|apply Forall_nil].
    - intros _. exact (keeps_none _ _ K).
    - intros h1 E1 [N|F]; [discriminate N|]. apply QN; assumption.
    - intros t h1 E1 [V|V]; apply QS; try exact E1; [left; congruence|right; exact V].
  Qed.
  Lemma read_tail_wp (R : sha_ok P) (A : aead_len_ok P) (C : ctr_ok P) p id s draft (MC : if_set made_chain (option_map ch_value s)) secret (U W : Prop) fails h0 X h (Q : option hcp -> heap -> Prop) :
    (forall n ty, In ty (T_ecdsa_result :: T_openssl :: T_cipher_result :: T_key_exchange :: T_ec_key :: T_cipher_key :: buffer_kinds) -> fails n ty = true -> U) ->
    (read_tail (pt_value p) (option_map b_bytes id) (option_map ch_value s) = UB -> U) -> (some_failure fails -> W) ->
    ext secret W h0 (pt_cells p ++ X) h -> in_memory h0 (oc buf_cells id) -> in_memory h0 (oc ch_cells s) ->
    keeps_secret secret (pt_plain (pt_value p)) -> keeps_secret secret (read_public P (Some (pt_value p)) (option_map ch_value s)) ->
    keeps_secret secret (opt_plain ch_plain (option_map ch_value s)) -> keeps_secret secret (opt_plain ch_copy_plain (option_map ch_value s)) ->
    (forall h1, ext secret W h0 X h1 -> read_tail (pt_value p) (option_map b_bytes id) (option_map ch_value s) = Null \/ some_failure fails -> Q None h1) ->
    (forall t h1, ext secret W h0 (cp_cells t ++ X) h1 -> cp_packet (cp_value t) = pt_value p ->
       read_tail (pt_value p) (option_map b_bytes id) (option_map ch_value s) = Val (cp_value t) \/
       some_failure fails /\ (exists sender, option_map ch_value s = Some sender /\ (cp_sender (cp_value t) = sender \/ ch_dropped sender (cp_sender (cp_value t)))) /\
         (parse_result_from_packet P (gen_header_key P) (Some (pt_value p)) (option_map b_bytes id) (option_map ch_value s) = Val (cp_parse (cp_value t)) \/
          read_worse (parse_result_from_packet P (gen_header_key P) (Some (pt_value p)) (option_map b_bytes id) (option_map ch_value s)) (cp_parse (cp_value t))) -> Q (Some t) h1) ->
    wp U fails (result <-? h_parse_result_from_packet P (Some p) id s draft else h_packet_destroy (Some p) ;;
      chain_copy <-? h_chain_copy s else (h_packet_destroy (Some p) ;;; h_parse_result_destroy (Some result)) ;;
      ctx_packet <-? h_ctx_packet_create (Some p) (Some chain_copy) (Some result)
        else (h_chain_destroy (Some chain_copy) ;;; h_packet_destroy (Some p) ;;; h_parse_result_destroy (Some result)) ;;
      hret (Some ctx_packet))%h h Q.
  Proof.
    intros HU HB HW E M1 M2 KP KR KC KCC QN QS. pose proof (keeps_none _ _ KP) as K0. unfold read_tail in *. wstep. callo (parse_result_from_packet_rule P R A C (Some p) id s draft); cbn [option_map] in *.
    - intros V. apply HB. rewrite V. reflexivity.
    - drop packet_destroy_rule p; [exact KP|]. apply QN; [assumption|]. left. rewrite N. reflexivity.
    - drop packet_destroy_rule p; [exact KP|]. apply QN; [assumption|]. right. assumption.
    - assert (KA : keeps_secret secret (pa_plain (pa_value t))).
      { refine (keeps_sub _ _ _ KR _). destruct V as [V|(_ & V)]; [exact (read_plain _ _ _ _ V)|]. exact (worse_plain _ _ _ V (fun r => read_plain _ _ _ r)). }
      wstep. destruct s as [se|]; cbn [oc option_map opt_plain] in *.
      2:{ unfold h_chain_copy. wstep. wstep. drop packet_destroy_rule p; [exact KP|]. drop parse_result_destroy_rule t; [exact KA|]. apply QN; [assumption|].
          destruct V as [V|(F & _)]; [left; rewrite V; reflexivity|right; exact F]. }
      specialize (MC _ eq_refl). rewrite (CopyFacts.chain_made _ MC) in *. cbn [lift rbind ctx_packet_create] in *.
      at_heap ltac:(fun E => eapply chain_found with (W := W); [exact MC| |exact HW|exact E|eapply source_in_memory; [exact E|exact M2]|exact KCC| |]).
      + intros n ty I. apply HU. cbn in I |- *. tauto.
      + intros h2 E2 F. wstep. drop packet_destroy_rule p; [exact KP|]. drop parse_result_destroy_rule t; [exact KA|]. apply QN; [assumption|]. right. exact F.
      + intros c h2 E2 D. wstep. unfold h_ctx_packet_create. 
        assert (KCH : keeps_secret secret (ch_plain (ch_value c))).
        { refine (keeps_sub _ _ _ KC _). destruct D as [D|(_ & D)]; [rewrite D; apply incl_refl|exact (chain_plain_rel _ _ D)]. }
        wstep. wstep.
        * wstep. wstep. drop chain_destroy_rule c; [exact KCH|]. wstep. drop packet_destroy_rule p; [exact KP|]. drop parse_result_destroy_rule t; [exact KA|]. apply QN; [assumption|]. right. sfailed.
        * wstep. wstep. apply QS; [|reflexivity|].
          -- unfold cp_cells. cbn [hcp_addr hcp_packet hcp_sender hcp_parse]. match goal with E : ext _ _ _ _ ?h |- ext _ _ _ _ ?h => eapply ext_perm; [|exact E] end. solve_perm.
          -- unfold cp_value. cbn [hcp_packet hcp_sender hcp_parse cp_sender cp_parse]. destruct V as [V|(F & V)].
             ++ destruct D as [D|(F & D)]; [left; rewrite V, D; reflexivity|right]. split; [exact F|]. split; [exists (ch_value se); split; [reflexivity|right; exact D]|left; exact V].
             ++ right. split; [exact F|]. split; [|right; exact V]. exists (ch_value se). split; [reflexivity|]. destruct D as [D|(_ & D)]; [left|right]; exact D.
  Qed.
  Lemma ctx_read_packet_rule (R : sha_ok P) (A : aead_len_ok P) (C : ctr_ok P) b id s draft (MC : if_set made_chain (option_map ch_value s)) :
    or_rule cp_cells cp_value [oc buf_cells b; oc buf_cells id; oc ch_cells s]
      (ctx_read_packet P (option_map b_bytes b) (option_map b_bytes id) (option_map ch_value s)) (ctx_read_worse P (option_map b_bytes b) (option_map b_bytes id) (option_map ch_value s))
      (ctx_read_public P (option_map b_bytes b) (option_map ch_value s)) []
      (T_ecdsa_result :: T_openssl :: T_cipher_result :: T_key_exchange :: T_ec_key :: T_cipher_key :: buffer_kinds) (ctx_read_leak (option_map b_bytes b)) (h_ctx_read_packet P b id s draft).
  Proof.
    destruct b as [b|]; [|absent h_ctx_read_packet]. begin. unfold h_ctx_read_packet, ctx_read_packet, ctx_read_public in *. cbn [oc option_map] in *. rd.
    assert (HWF : some_failure fails -> W) by (intros F; apply HW; left; exact F). assert (HWO : odd_signature (b_bytes b) -> W) by (intros O; apply HW; right; exists (b_bytes b); split; [reflexivity|exact O]).
    change (fun p : packet => rbind (parse_result_from_packet P (gen_header_key P) (Some p) (option_map b_bytes id) (option_map ch_value s)) _) with (fun p => read_tail p (option_map b_bytes id) (option_map ch_value s)) in *.
    wstep. call (parse_op pt_cells pt_value _ _ _ _ _ (b_bytes b) packet_parse_rule).
    - intros V. apply HB. rewrite V. reflexivity.
    - wstep. apply QN; [assumption|]. left. rewrite N. reflexivity.
    - wstep. apply QN; [assumption|]. right. assumption.
    - rewrite V in *. cbn [rbind plain_of] in *. at_heap ltac:(fun E => eapply (read_tail_wp R A C t id s draft MC) with (W := W) (X := []); [exact HU|exact HB|exact HWF|rewrite app_nil_r; exact E|exact M1|exact M2| | | | |exact QN|]).
      + refine (keeps_sub _ _ _ K _). intros z I. rewrite !in_app_iff. auto.
      + refine (keeps_sub _ _ _ K _). intros z I. rewrite !in_app_iff. auto.
      + refine (keeps_sub _ _ _ K _). intros z I. rewrite !in_app_iff. auto 6.
      + refine (keeps_sub _ _ _ K _). intros z I. rewrite !in_app_iff. auto 6.
      + intros u h9 E9 PK D. rewrite app_nil_r in E9. apply QS; [exact E9|]. destruct D as [D|(F & (sender & S & D1) & D2)]; [left; exact D|right; split; [exact F|]].
        exists sender. rewrite PK. split; [exact S|]. split; [exact V|]. split; [exact D1|exact D2].
  Qed.
  Lemma ctx_parse_packet_rule (R : sha_ok P) (A : aead_len_ok P) (C : ctr_ok P) g b s draft (MC : if_set made_chain (option_map ch_value s)) :
    or_rule cp_cells cp_value [oc cx_cells g; oc buf_cells b; oc ch_cells s]
      (ctx_parse_packet P (option_map cx_value g) (option_map b_bytes b) (option_map ch_value s))
      (ctx_read_worse P (option_map b_bytes b) (option_map (fun x => id_identifier (ch_node (cx_chain x))) (option_map cx_value g)) (option_map ch_value s))
      (ctx_read_public P (option_map b_bytes b) (option_map ch_value s)) []
      (T_ecdsa_result :: T_openssl :: T_cipher_result :: T_key_exchange :: T_ec_key :: T_cipher_key :: buffer_kinds) (ctx_read_leak (option_map b_bytes b)) (h_ctx_parse_packet P g b s draft).
  Proof.
    begin. destruct g as [g|]; [|unfold h_ctx_parse_packet; apply wp_ub; apply HB; reflexivity]. unfold h_ctx_parse_packet. cbn [oc option_map ctx_parse_packet] in *. parts M0 cx_cells.
    match goal with G : in_memory _ (ch_cells (hcx_chain g)) |- _ => unfold ch_cells in G; memory end. match goal with G : in_memory _ (id_cells (hch_node (hcx_chain g))) |- _ => unfold id_cells in G; memory end. do 6 wstep.
    eapply (ctx_read_packet_rule R A C b (Some (hid_identifier (hch_node (hcx_chain g)))) s draft MC) with (W := W); [exact HU|exact HB|exact HW|exact OK|arguments|exact K|exact KE|exact QN|exact QS].
  Qed.
  Lemma ctx_parse_packet_no_decode_rule (R : sha_ok P) (A : aead_len_ok P) (C : ctr_ok P) g b s draft (MC : if_set made_chain (option_map ch_value s)) :
    or_rule cp_cells cp_value [oc cx_cells g; oc buf_cells b; oc ch_cells s]
      (ctx_parse_packet_no_decode P (option_map cx_value g) (option_map b_bytes b) (option_map ch_value s))
      (ctx_read_worse P (option_map b_bytes b) None (option_map ch_value s))
      (ctx_read_public P (option_map b_bytes b) (option_map ch_value s)) []
      (T_ecdsa_result :: T_openssl :: T_cipher_result :: T_key_exchange :: T_ec_key :: T_cipher_key :: buffer_kinds) (ctx_read_leak (option_map b_bytes b)) (h_ctx_parse_packet_no_decode P g b s draft).
  Proof.
    begin. destruct g as [g|]; [|unfold h_ctx_parse_packet_no_decode; apply wp_ub; apply HB; reflexivity]. unfold h_ctx_parse_packet_no_decode. cbn [oc option_map ctx_parse_packet_no_decode] in *.
    eapply (ctx_read_packet_rule R A C b None s draft MC) with (W := W); [exact HU|exact HB|exact HW|exact OK|arguments|exact K|exact KE|exact QN|exact QS].
  Qed.
End decoding.
