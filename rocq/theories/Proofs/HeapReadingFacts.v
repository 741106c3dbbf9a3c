(* Rules for the functions of Model/HeapProtocol.v that make and read packets. *)
From Verif.Base Require Import Bytes Monad.
From Verif.Model Require Import Buffer CString Cipher Ecdsa Kdf Prims Engine Keys Identity Node EcdhCipher Exchange Payload Packet Ctx Proto Heap HeapObjects HeapMessages HeapParse HeapWrite HeapEngine HeapProtocol.
From Verif.Spec Require Import HeapSpec HeapObjectSpec BufferSpec CopySpec HeapParseSpec HeapWriteSpec HeapEngineSpec HeapProtocolSpec.
From Verif.Proofs Require Import BufferFacts HeapFacts HeapObjectFacts HeapMessageFacts HeapCtxFacts HeapParseFacts HeapWriteFacts HeapEngineFacts HeapKdfFacts HeapProtocolFacts HeapExchangeFacts HeapPacketFacts.
From Verif.Proofs Require CopyFacts ParserFacts BytesFacts CodecFacts.
From Coq Require Import Permutation ZifyBool ZifyNat ZifyN.
Local Open Scope N_scope.

Section find.
  Lemma key_exchange_found x secret (U W : Prop) fails h0 X h (Q : option hkx -> heap -> Prop) : made_key_exchange (kx_value x) ->
    (forall n ty, In ty [T_cipher_result; T_key_exchange] -> fails n ty = true -> U) -> (some_failure fails -> W) ->
    ext secret W h0 X h -> in_memory h (kx_cells x) -> keeps_secret secret (kx_plain (kx_value x)) ->
    (forall h1, ext secret W h0 X h1 -> some_failure fails -> Q None h1) ->
    (forall t h1, ext secret W h0 (kx_cells t ++ X) h1 -> kx_value t = kx_value x \/ some_failure fails /\ kx_dropped (kx_value x) (kx_value t) -> Q (Some t) h1) ->
    wp U fails (h_key_exchange_copy (Some x)) h Q.
  Proof.
    intros MD HU HW E M K QN QS. eapply (or_call _ _ _ _ _ _ _ _ _ _ (copy_or _ _ _ _ _ _ _ _ _ x key_exchange_copy_rule MD)) with (W := W); [exact HU|discriminate|exact HW|exact E| |exact K| | |].
    - apply Forall_cons; [exact M|apply Forall_nil].
    - intros _. exact (keeps_none _ _ K).
    - intros h1 E1 [N|F]; [discriminate N|]. apply QN; assumption.
    - intros t h1 E1 [V|V]; apply QS; try exact E1; [left; congruence|right; exact V].
  Qed.
  Lemma exchange_find_wp l i secret (U W : Prop) fails h0 X h (Q : option hkx -> heap -> Prop) : Forall (if_set made_key_exchange) (map (option_map kx_value) l) ->
    (forall n ty, In ty [T_cipher_result; T_key_exchange] -> fails n ty = true -> U) -> (exchange_find (map (option_map kx_value) l) (b_bytes i) = UB -> U) -> (some_failure fails -> W) ->
    ext secret W h0 X h -> in_memory h (buf_cells i) -> Forall (fun o => in_memory h (oc kx_cells o)) l -> keeps_secret secret (xa_plain (map (option_map kx_value) l)) ->
    (forall h1, ext secret W h0 X h1 -> exchange_find (map (option_map kx_value) l) (b_bytes i) = Null \/ some_failure fails -> Q None h1) ->
    (forall t h1, ext secret W h0 (kx_cells t ++ X) h1 ->
       exchange_find (map (option_map kx_value) l) (b_bytes i) = Val (kx_value t) \/ some_failure fails /\ found_dropped (exchange_find (map (option_map kx_value) l) (b_bytes i)) (kx_value t) -> Q (Some t) h1) ->
    wp U fails (h_exchange_find l i) h Q.
  Proof.
    intros MD HU HB HW E MI ML K QN QS. induction l as [|[x|] l IH]; cbn [map h_exchange_find exchange_find option_map] in *.
    - wstep. apply QN; [exact E|left; reflexivity].
    - pose proof (Forall_inv ML) as MX. cbn [oc] in MX. pose proof MX as MP. unfold kx_cells in MP. memory. wstep. wstep. wstep. unfold h_bytes.
      pose proof MI as MJ. unfold buf_cells in MJ. memory. match goal with G : in_memory _ (buf_cells (hkx_id x)) |- _ => unfold buf_cells in G end. memory.
      wstep. eapply wp_touch; [eassumption|]. eapply wp_load; [match goal with G : in_memory _ (one_cell (b_data i) _) |- _ => apply (proj2 G); left; reflexivity end|].
      wstep. wstep. eapply wp_touch; [eassumption|]. eapply wp_load; [match goal with G : in_memory _ (one_cell (b_data (hkx_id x)) _) |- _ => apply (proj2 G); left; reflexivity end|].
      change (kx_id (kx_value x)) with (b_bytes (hkx_id x)) in *. destruct (buffer_is_equal (Some (b_bytes i)) (Some (b_bytes (hkx_id x)))) eqn:B.
      + pose proof (Forall_inv MD) as MDX0. assert (MDX : made_key_exchange (kx_value x)) by exact (MDX0 _ eq_refl). rewrite (CopyFacts.key_exchange_made _ MDX) in *. cbn [lift] in *.
        eapply key_exchange_found; [exact MDX|exact HU|exact HW|exact E|exact MX| | |].
        * refine (keeps_sub _ _ _ K _). intros z I. unfold xa_plain, all_public. cbn [flat_map opt_list]. apply in_or_app. left. rewrite app_nil_r. exact I.
        * intros h1 E1 F. apply QN; [exact E1|right; exact F].
        * intros t h1 E1 [V|(F & V)]; apply QS; try exact E1; [left; rewrite V; reflexivity|right; split; [exact F|]]. exists (kx_value x). split; [reflexivity|exact V].
      + apply IH; [exact (Forall_inv_tail MD)|exact HB|exact (Forall_inv_tail ML)| |exact QN|exact QS].
        refine (keeps_sub _ _ _ K _). intros z I. unfold xa_plain, all_public. cbn [flat_map]. apply in_or_app. right. exact I.
    - apply wp_ub. apply HB. reflexivity.
  Qed.
  Lemma exchange_set_find_rule set i (MD : if_set (fun s => Forall (if_set made_key_exchange) (xs_items s)) (option_map xs_value set)) :
    or_rule kx_cells kx_value [oc xs_cells set; oc buf_cells i] (exchange_set_find (option_map xs_value set) (option_map b_bytes i))
      (found_dropped (exchange_set_find (option_map xs_value set) (option_map b_bytes i)))
      (opt_plain xs_plain (option_map xs_value set)) [] [T_cipher_result; T_key_exchange] some_failure (h_exchange_set_find set i).
  Proof.
    destruct set as [x|]; [|absent h_exchange_set_find]. destruct i as [i|]; [|absent h_exchange_set_find]. unfold h_exchange_set_find. cbn [option_map exchange_set_find if_set opt_plain] in *.
    begin. cbn [oc] in *. parts M0 xs_cells. match goal with G : in_memory _ (xa_cells _) |- _ => unfold xa_cells, arr_cells in G end. memory. wstep. wstep. wstep. wstep.
    change (xs_items (xs_value x)) with (map (option_map kx_value) (harr_items (hxs_items x))) in *.
    eapply exchange_find_wp; [exact (MD _ eq_refl)|exact HU|exact HB|exact HW|exact E|assumption| |exact K|exact QN|].
    - match goal with G : in_memory _ (flat_map _ _) |- _ => apply in_memory_flat in G; exact G end.
    - intros t h1 E1. rewrite app_nil_r in E1. exact (QS _ _ E1).
  Qed.
End find.
Section packets.
  Context (P : prims).
  Lemma digest_key_len c : digest_size (digest_matching_cipher c) = key_len c.
  Proof. destruct c; reflexivity. Qed.
  Lemma sha2_len (R : sha_ok P) a b d v : sha2 P a b d = Some v -> blen v = digest_size d.
  Proof. unfold sha2. destruct a as [a|]; [|discriminate]. intros V. apply Some_inj' in V. subst v. apply R. Qed.
  Lemma gen_header_key_rule (R : sha_ok P) c se : op_rule ck_cells ck_value [ch_cells se] (lift (gen_header_key P c (ch_value se))) [] [] (T_cipher_key :: buffer_kinds) never_leaks_op
    (h_gen_header_key P c se).
  Proof.
    begin. parts M0 ch_cells. repeat match goal with G : in_memory _ (id_cells _) |- _ => unfold id_cells in G; memory end. unfold h_gen_header_key.
    wstep. wstep. wstep. wstep. wstep. wstep. wstep. unfold gen_header_key in *.
    change (id_identifier (ch_root (ch_value se))) with (b_bytes (hid_identifier (hch_root se))) in *. change (id_identifier (ch_node (ch_value se))) with (b_bytes (hid_identifier (hch_node se))) in *.
    call (sha2_rule P R (Some (hid_identifier (hch_root se))) (Some (hid_identifier (hch_node se))) (digest_matching_cipher c)); cbn [option_map] in *.
    - intros V. destruct (lift_ub _ V).
    - apply lift_null in N. wstep. gone. left. rewrite N. reflexivity.
    - wstep. gone. right. exact F.
    - apply lift_val in V. rewrite V in *. pose proof (sha2_len R _ _ _ _ V) as L. rewrite digest_key_len in L. wstep.
      at_heap ltac:(fun E => eapply (cipher_key_create_op c t L); [|exact E|]).
      + untested_tac.
      + intros k h2 E2 VK. clear E0. wstep. there. unfold cipher_key_create. rewrite L, N.eqb_refl. rewrite VK. reflexivity.
  Qed.
  (* the functional model once the parts have been serialized *)
  Definition packet_of (m : bytes) (k : ec_key) (version : N) (s : nat) : res packet :=
    if size_ok (blen m) then
      match fst (ec_sign P (Some k) (Some m) (digest_matching_curve (ek_curve k)) s) with
      | Val g => Val {| pt_version := version; pt_content := m; pt_signature := g |}
      | Null => Null
      | UB => UB
      end
    else Null.
  Lemma packet_eq hd p k version s : fst (packet_create_with_components P (Some hd) (Some p) (Some k) version s) =
    match cipher_result_serialize (Some hd), cipher_result_serialize (Some p) with
    | None, _ => Null
    | Some _, None => UB
    | Some a, Some b => packet_of (pb_packet_pack {| pq_header := a; pq_payload := b |}) k version s
    end.
  Proof.
    unfold packet_create_with_components, packet_of, mbind, mlift, mret, mres. destruct (cipher_result_serialize (Some hd)) as [a|]; [|reflexivity]. cbn [lift].
    destruct (cipher_result_serialize (Some p)) as [b|]; [|reflexivity]. unfold pack_buffer. cbv zeta. set (m := pb_packet_pack _). unfold buffer_create. destruct (size_ok (blen m)) eqn:Z.
    - cbn [lift]. destruct (ec_sign P (Some k) (Some m) (digest_matching_curve (ek_curve k)) s) as [[g| |] s1]; reflexivity.
    - reflexivity.
  Qed.
  Lemma packet_of_wp (R : sign_ok P) t b m k version s secret (U W : Prop) fails h0 X h (Q : option hpt -> heap -> Prop) :
    (forall n ty, In ty [T_proto; T_buffer; T_data; T_openssl; T_ecdsa_result] -> fails n ty = true -> U) -> (packet_of m (key_value k) version s = UB -> U) -> (sign_leak P (Some k) fails -> W) ->
    ext secret W h0 (buf_cells b ++ buf_cells t ++ X) h -> in_memory h0 (key_cells k) ->
    keeps_secret secret [b_bytes t] -> keeps_secret secret [b_bytes b] -> keeps_secret secret [m] -> (forall v, packet_of m (key_value k) version s = Val v -> keeps_secret secret (sig_plain (pt_signature v))) ->
    (forall h1, ext secret W h0 X h1 -> packet_of m (key_value k) version s = Null \/ some_failure fails -> Q None h1) ->
    (forall t h1, ext secret W h0 (pt_cells t ++ X) h1 -> packet_of m (key_value k) version s = Val (pt_value t) -> Q (Some t) h1) ->
    wp U fails (
      result_buffer <-? h_buffer_create_empty (blen m) else (h_buffer_destroy (Some t) ;;; h_buffer_destroy (Some b)) ;;
      content <-! h_fill result_buffer m ;;
      h_buffer_destroy (Some t) ;;;
      h_buffer_destroy (Some b) ;;;
      touch (hkey_addr k) ;;;
      signature <-? h_ec_sign P (Some k) (Some content) (digest_matching_curve (hkey_curve k)) s else h_buffer_destroy (Some content) ;;
      packet <-? h_packet_create version (Some content) (Some signature)
        else (h_buffer_destroy (Some content) ;;; h_ecdsa_result_destroy (Some signature)) ;;
      hret (Some packet))%h h Q.
  Proof.
    intros HU HB HW E MK KT KB KM KS QN QS. pose proof (keeps_none _ _ KT) as K0. unfold packet_of in HB, QN, QS, KS. change (ek_curve (key_value k)) with (hkey_curve k) in HB, QN, QS, KS.
    wstep. new_buffer.
    - wstep. release t; [exact KT|]. release b; [exact KB|]. gone. left. rewrite N. reflexivity.
    - wstep. release t; [exact KT|]. release b; [exact KB|]. gone. right. sfailed.
    - rewrite Z in HB, QN, QS, KS. wstep. fill b0; [rewrite B; unfold zeros, blen; rewrite repeat_length; lia|]. 
      match goal with |- context [h_fill] => fail 1 | E : ext _ _ _ (buf_cells ?x ++ _) _ |- _ => remember x as c eqn:DC end.
      assert (BC : b_bytes c = m) by (rewrite DC; reflexivity). clear DC. rewrite <- BC in *. clear BC m.
      wstep. release t; [exact KT|]. wstep. release b; [exact KB|]. parts MK key_cells. wstep. wstep. wstep.
      call (ec_sign_rule P R (Some k) (Some c) (digest_matching_curve (hkey_curve k)) s); cbn [option_map] in *.
      + intros X0. apply HB. rewrite X0. reflexivity.
      + release c; [exact KM|]. gone. left. rewrite N. reflexivity.
      + release c; [exact KM|]. gone. right. exact F.
      + rewrite V in QS, KS. unfold h_packet_create. wstep. wstep. wstep; [|wstep; wstep; there; reflexivity].
        wstep. wstep. release c; [exact KM|]. drop ecdsa_result_destroy_rule t0; [exact (KS _ eq_refl)|]. gone. right. sfailed.
  Qed.
  Lemma packet_create_rule (R : sign_ok P) hd p k version s : op_rule pt_cells pt_value [oc cr_cells hd; oc cr_cells p; oc key_cells k]
    (fst (packet_create_with_components P (option_map cr_value hd) (option_map cr_value p) (option_map key_value k) version s))
    (packet_public P (option_map cr_value hd) (option_map cr_value p) (option_map key_value k) version s) []
    [T_proto; T_buffer; T_data; T_openssl; T_ecdsa_result] (sign_leak P k) (h_packet_create_with_components P hd p k version s).
  Proof.
    destruct p as [p|]; [|absent h_packet_create_with_components]. destruct k as [k|]; [|absent h_packet_create_with_components].
    begin. unfold h_packet_create_with_components. cbn [option_map oc] in *. destruct hd as [hd|]; [|wstep; unfold h_cipher_result_serialize; wstep; wstep; gone; left; reflexivity]. cbn [option_map oc] in *.
    unfold packet_public in K. rewrite packet_eq in K, HB, QN, QS.
    wstep. call (write_op cr_cells cr_value _ _ _ _ hd cipher_result_write).
    - intros V. destruct (lift_ub _ V).
    - apply lift_null in N. wstep. gone. left. rewrite N. reflexivity.
    - wstep. gone. right. exact F.
    - apply lift_val in V. rewrite V in K, HB, QN, QS. wstep.
      at_heap ltac:(fun E => eapply cipher_result_write with (W := W); [intros n ty []|intros X; destruct (lift_ub _ X)|discriminate|exact E|eassumption|exact K0| |]; clear E).
      + intros h1 E1 [N|F]; [|mused; match goal with I : In ?ty [_; _; _] |- In ?ty _ => cbn in I |- *; tauto end]. apply lift_null in N. rewrite N in HB. apply HB. reflexivity.
      + intros b h1 E1 [VB|(_ & [])]. apply lift_val in VB. rewrite VB in K, HB, QN, QS. clear VB V.
        assert (KT : keeps_secret secret [b_bytes t]) by (refine (keeps_sub _ _ _ K _); intros z [<-|[]]; left; reflexivity).
        assert (KB : keeps_secret secret [b_bytes b]) by (refine (keeps_sub _ _ _ K _); intros z [<-|[]]; right; left; reflexivity).
        rd. rd. generalize dependent (pb_packet_pack {| pq_header := b_bytes t; pq_payload := b_bytes b |}). intros m HB K QN QS.
        eapply packet_of_wp; [exact R|exact HU|exact HB|exact HW|exact E1|assumption|exact KT|exact KB| | |exact QN|].
        * refine (keeps_sub _ _ _ K _). intros z [<-|[]]. right; right; left; reflexivity.
        * intros v V. rewrite V in K. refine (keeps_sub _ _ _ K _). intros z I. do 3 right. right. exact I.
        * intros t1 h2 E2. rewrite app_nil_r in E2. exact (QS _ _ E2).
  Qed.
End packets.
(* release a message *)
Ltac unpacked bs l KF LB :=
  at_heap ltac:(fun E => pull E (combine bs l); let E' := fresh "E" in let h := fresh "h" in eapply free_all_wp; [exact E|exact KF|exact LB|intros h E'; clear E]).
Section reading.
  Context (P : prims).
  Definition lookup_pure (id : option bytes) (header : exchange_set) (payload : bytes) : res parse_result :=
    match (match id with None => Val None | Some i => match exchange_set_find (Some header) (Some i) with Val x => Val (Some x) | Null => Null | UB => UB end end) with
    | UB => UB
    | Null => Val (parse_failure SIG_VALID ERROR_NODE_NOT_FOUND)
    | Val x => match cipher_result_from_buffer (Some payload) with
               | UB => UB
               | Null => Val (parse_failure SIG_VALID ERROR_CORRUPT_PACKET)
               | Val pr => Val (parse_success (Some header) x (Some pr))
               end
    end.
  Definition open_pure (id : option bytes) (s : chain) (m : pb_packet) : res parse_result :=
    match cipher_result_from_buffer (Some (pq_header m)) with
    | UB => UB
    | Null => Val (parse_failure SIG_VALID ERROR_CORRUPT_PACKET)
    | Val hc => match exchange_set_create_from_cipher P (Some hc) (gen_header_key P (cr_cipher hc) s) with
                | UB => UB
                | Null => Val (parse_failure SIG_VALID ERROR_CORRUPT_PACKET)
                | Val hd => lookup_pure id hd (pq_payload m)
                end
    end.
  Definition unpack_pure (id : option bytes) (s : chain) (content : bytes) : res parse_result :=
    match pb_packet_unpack content with
    | None => Val (parse_failure SIG_VALID ERROR_CORRUPT_PACKET)
    | Some m => open_pure id s m
    end.
  Lemma read_eq p id s : parse_result_from_packet P (gen_header_key P) (Some p) id (Some s) =
    if negb (curve_id (ek_curve (id_key (ch_node s))) =? curve_id (es_curve (pt_signature p))) then Val (parse_failure SIG_INVALID ERROR_INVALID_INPUT)
    else if negb (ec_verify P (Some (pt_signature p)) (Some (id_key (ch_node s))) (Some (pt_content p))) then Val (parse_failure SIG_INVALID ERROR_MAC_INVALID)
    else unpack_pure id s (pt_content p).
  Proof.
    unfold parse_result_from_packet, unpack_pure, open_pure, lookup_pure. cbv zeta. destruct (negb _); [reflexivity|]. destruct (negb _); [reflexivity|]. destruct (pb_packet_unpack _) as [m|]; [|reflexivity].
    destruct (cipher_result_from_buffer (Some (pq_header m))) as [hc| |]; [|reflexivity..]. cbn [rtry rbind].
    destruct (exchange_set_create_from_cipher P _ _) as [hd| |]; [|reflexivity..]. cbn [rtry rbind].
    destruct id as [i|]; [destruct (exchange_set_find _ _) as [x| |]; [|reflexivity..]|]; cbn [rtry rbind]; destruct (cipher_result_from_buffer (Some (pq_payload m))); reflexivity.
  Qed.
  Lemma failure_wp st e secret (U W : Prop) fails h0 X h (Q : option hpa -> heap -> Prop) : ext secret W h0 X h ->
    (forall h1, ext secret W h0 X h1 -> some_failure fails -> Q None h1) ->
    (forall t h1, ext secret W h0 (pa_cells t ++ X) h1 -> pa_value t = parse_failure st e -> Q (Some t) h1) -> wp U fails (h_parse_failure st e) h Q.
  Proof.
    intros E QN QS. unfold h_parse_failure, h_parse_result_create. wstep. wstep; [wstep; apply QN; [exact E0|sfailed]|]. wstep. apply QS; [|reflexivity].
    unfold pa_cells. cbn [hpa_addr hpa_set hpa_exchange hpa_payload cells_opt]. eapply ext_perm; [|exact E0]. solve_perm.
  Qed.
  Definition finish_pure (hd : exchange_set) (x : option key_exchange) (payload : bytes) : res parse_result :=
    match cipher_result_from_buffer (Some payload) with
    | UB => UB
    | Null => Val (parse_failure SIG_VALID ERROR_CORRUPT_PACKET)
    | Val pr => Val (parse_success (Some hd) x (Some pr))
    end.
  Lemma finish_wp bs m hd found secret (U W : Prop) fails h0 X h (Q : option hpa -> heap -> Prop) :
    (forall n ty, In ty [T_cipher_result] -> fails n ty = true -> U) -> (cipher_result_from_buffer (Some (pq_payload m)) = UB -> U) ->
    ext secret W h0 (combine bs (packet_fields m) ++ oc kx_cells found ++ xs_cells hd ++ X) h -> length bs = length (packet_fields m) ->
    keeps_secret secret (packet_fields m) -> keeps_secret secret (sections (pq_payload m)) -> keeps_secret secret (xs_plain (xs_value hd)) ->
    keeps_secret secret (opt_plain kx_plain (option_map kx_value found)) ->
    (forall h1, ext secret W h0 X h1 -> some_failure fails -> Q None h1) ->
    (forall t h1, ext secret W h0 (pa_cells t ++ X) h1 ->
       finish_pure (xs_value hd) (option_map kx_value found) (pq_payload m) = Val (pa_value t) \/ some_failure fails /\ pa_value t = parse_failure SIG_VALID ERROR_CORRUPT_PACKET ->
       Q (Some t) h1) ->
    wp U fails (h_parse_finish (bs, m) hd found) h Q.
  Proof.
    intros HU HB E LB KF KS KX KE QN QS. pose proof (keeps_none _ _ KF) as K0. unfold h_parse_finish. cbn [snd]. unfold h_free_unpacked. cbn [fst].
    assert (FR : forall h1 R, (forall h2, ext secret W h0 X h2 -> wp U fails (h_parse_failure SIG_VALID ERROR_CORRUPT_PACKET) h2 R) ->
      ext secret W h0 (oc kx_cells found ++ xs_cells hd ++ X) h1 ->
      wp U fails (h_key_exchange_destroy found ;;; h_exchange_set_destroy (Some hd) ;;; h_parse_failure SIG_VALID ERROR_CORRUPT_PACKET)%h h1 R).
    { intros h1 R G E1. wstep. destruct found as [x|]; cbn [oc option_map opt_plain] in *.
      - drop key_exchange_destroy_rule x; [exact KE|]. wstep. drop exchange_set_destroy_rule hd; [exact KX|]. apply G. assumption.
      - unfold h_key_exchange_destroy. wstep. wstep. drop exchange_set_destroy_rule hd; [exact KX|]. apply G. assumption. }
    wstep. call (parse_op cr_cells cr_value _ _ _ _ _ (pq_payload m) cipher_result_parse_rule).
    - exact HB.
    - wstep. unpacked bs (packet_fields m) KF LB. apply FR; [|assumption]. intros h9 E9. eapply failure_wp; [exact E9|exact QN|]. intros t h8 E8 V. apply QS; [exact E8|]. left. unfold finish_pure. rewrite N, V. reflexivity.
    - wstep. unpacked bs (packet_fields m) KF LB. apply FR; [|assumption]. intros h9 E9. eapply failure_wp; [exact E9|exact QN|]. intros t h8 E8 V. apply QS; [exact E8|]. right. split; assumption.
    - wstep. unpacked bs (packet_fields m) KF LB. unfold h_parse_result_create. wstep. wstep. wstep.
      + wstep. wstep. assert (KC : keeps_secret secret (cr_plain (cr_value t))) by (refine (keeps_sub _ _ _ KS _); exact (cipher_result_sourced (Some (pq_payload m)) _ V)).
        destruct found as [x|]; cbn [oc option_map opt_plain] in *.
        * drop key_exchange_destroy_rule x; [exact KE|]. wstep. drop exchange_set_destroy_rule hd; [exact KX|]. drop cipher_result_destroy_rule t; [exact KC|]. gone. sfailed.
        * unfold h_key_exchange_destroy. wstep. wstep. drop exchange_set_destroy_rule hd; [exact KX|]. drop cipher_result_destroy_rule t; [exact KC|]. gone. sfailed.
      + wstep. wstep. apply QS; [|left; unfold finish_pure; rewrite V; reflexivity].
        unfold pa_cells. cbn [hpa_addr hpa_set hpa_exchange hpa_payload]. change (cells_opt kx_cells found) with (oc kx_cells found). cbn [cells_opt]. match goal with E : ext _ _ _ _ ?h |- ext _ _ _ _ ?h => eapply ext_perm; [|exact E] end. solve_perm.
  Qed.
  Lemma Val_inj {A} (x y : A) : Val x = Val y -> x = y.
  Proof. congruence. Qed.
  Lemma lookup_valid id hd b r : lookup_pure id hd b = Val r -> pa_status r = SIG_VALID.
  Proof. unfold lookup_pure. destruct id as [i|]; [destruct (exchange_set_find _ _)|]; try destruct (cipher_result_from_buffer _); intros V; try discriminate V; apply Val_inj in V; subst r; reflexivity. Qed.
  Lemma open_valid id s m r : open_pure id s m = Val r -> pa_status r = SIG_VALID.
  Proof.
    unfold open_pure. destruct (cipher_result_from_buffer _); [|intros V; apply Val_inj in V; subst r; reflexivity|discriminate].
    destruct (exchange_set_create_from_cipher _ _ _); [apply lookup_valid|intros V; apply Val_inj in V; subst r; reflexivity|discriminate].
  Qed.
  Lemma worse_failure pure e v : e <> E_SUCCESS -> (forall r, pure = Val r -> pa_status r = SIG_VALID) -> v = parse_failure SIG_VALID e -> read_worse pure v.
  Proof. intros NE S ->. split; [intros r V _; exact (S r V)|left; exists SIG_VALID, e; split; [reflexivity|exact NE]]. Qed.
  Lemma found_plain set n x : exchange_find set n = Val x -> Forall (if_set made_key_exchange) set -> incl (kx_plain x) (xa_plain set).
  Proof.
    induction set as [|[y|] set IH]; cbn [exchange_find]; intros V MD; [discriminate V| |discriminate V]. unfold xa_plain, all_public. cbn [flat_map opt_list]. destruct (buffer_is_equal _ _).
    - rewrite (CopyFacts.key_exchange_made _ (Forall_inv MD _ eq_refl)) in V. cbn [lift] in V. apply Val_inj in V. subst y. intros z I. apply in_or_app. left. rewrite app_nil_r. exact I.
    - intros z I. apply in_or_app. right. exact (IH V (Forall_inv_tail MD) z I).
  Qed.
  Lemma lookup_wp bs m hd id secret (U W : Prop) fails h0 X h (Q : option hpa -> heap -> Prop) : made_exchange_set (xs_value hd) ->
    (forall n ty, In ty [T_cipher_result; T_key_exchange] -> fails n ty = true -> U) -> (lookup_pure (option_map b_bytes id) (xs_value hd) (pq_payload m) = UB -> U) -> (some_failure fails -> W) ->
    ext secret W h0 (xs_cells hd ++ combine bs (packet_fields m) ++ X) h -> length bs = length (packet_fields m) -> in_memory h0 (oc buf_cells id) ->
    keeps_secret secret (packet_fields m) -> keeps_secret secret (sections (pq_payload m)) -> keeps_secret secret (xs_plain (xs_value hd)) ->
    (forall h1, ext secret W h0 X h1 -> some_failure fails -> Q None h1) ->
    (forall t h1, ext secret W h0 (pa_cells t ++ X) h1 ->
       lookup_pure (option_map b_bytes id) (xs_value hd) (pq_payload m) = Val (pa_value t) \/
       some_failure fails /\ read_worse (lookup_pure (option_map b_bytes id) (xs_value hd) (pq_payload m)) (pa_value t) -> Q (Some t) h1) ->
    wp U fails (match id with
                | None => h_parse_finish (bs, m) hd None
                | Some i =>
                    found <-! h_exchange_set_find (Some hd) (Some i) ;;
                    match found with
                    | None => h_exchange_set_destroy (Some hd) ;;; h_free_unpacked (bs, m) ;;; h_parse_failure SIG_VALID ERROR_NODE_NOT_FOUND
                    | Some x => h_parse_finish (bs, m) hd (Some x)
                    end
                end)%h h Q.
  Proof.
    intros MD HU HB HW E LB MI KF KS KX QN QS. pose proof (keeps_none _ _ KF) as K0. destruct id as [i|]; cbn [option_map oc] in *.
    - assert (MDI : if_set (fun s => Forall (if_set made_key_exchange) (xs_items s)) (option_map xs_value (Some hd))) by (intros s V; apply Some_inj' in V; subst s; exact (proj2 MD)).
      wstep. callo (exchange_set_find_rule (Some hd) (Some i) MDI); cbn [option_map opt_plain] in *.

      + intros V. apply HB. unfold lookup_pure. rewrite V. reflexivity.
      + wstep. drop exchange_set_destroy_rule hd; [exact KX|]. wstep. unfold h_free_unpacked. cbn [fst]. unpacked bs (packet_fields m) KF LB.
        at_heap ltac:(fun E => eapply failure_wp; [exact E|exact QN|]). intros t h9 E9 V. apply QS; [exact E9|]. left. unfold lookup_pure.
        match goal with G : exchange_set_find _ _ = Null |- _ => rewrite G end. rewrite V. reflexivity.
      + wstep. drop exchange_set_destroy_rule hd; [exact KX|]. wstep. unfold h_free_unpacked. cbn [fst]. unpacked bs (packet_fields m) KF LB.
        at_heap ltac:(fun E => eapply failure_wp; [exact E|exact QN|]). intros t h9 E9 V. apply QS; [exact E9|]. right. split; [assumption|]. refine (worse_failure _ _ _ _ (lookup_valid _ _ _) V). discriminate.
      + assert (KE : keeps_secret secret (opt_plain kx_plain (option_map kx_value (Some t)))).
        { cbn [option_map opt_plain]. refine (keeps_sub _ _ _ KX _). match goal with G0 : _ \/ _ |- _ => destruct G0 as [G|(_ & (x & G & D))] end.
          - exact (found_plain _ _ _ G (proj2 MD)).
          - intros z I. exact (found_plain _ _ _ G (proj2 MD) _ (key_exchange_plain_rel _ _ D _ I)). }
        at_heap ltac:(fun E => eapply (finish_wp bs m hd (Some t)) with (X := X) (W := W); [| |cbn [oc]; eapply ext_perm; [|exact E]; solve_perm|exact LB|exact KF|exact KS|exact KX|exact KE|exact QN|]).
        * intros n ty I. apply HU. cbn in I |- *. tauto.
        * intros Z. destruct (CodecFacts.result_parse_safe _ Z).
        * intros u h9 E9 [Z|(F & Z)]; apply QS; try exact E9.
          -- cbn [option_map]  in Z. unfold finish_pure  in Z. unfold lookup_pure. match goal with G0 : _ = Val (kx_value t) \/ _ |- _ => destruct G0 as [G|(F & (x & G & D))] end; rewrite G.
             ++ left. exact Z.
             ++ destruct (cipher_result_from_buffer _) as [pr| |]; [|left; exact Z|discriminate Z]. right. split; [exact F|]. apply Val_inj  in Z. rewrite <- Z. split; [intros r R _; apply Val_inj in R; subst r; reflexivity|].
                right. exists (parse_success (Some (xs_value hd)) (Some x) (Some pr)), x, (kx_value t). split; [reflexivity|]. split; [reflexivity|]. split; [exact D|reflexivity].
          -- right. split; [exact F|]. refine (worse_failure _ _ _ _ (lookup_valid _ _ _) Z). discriminate.
    - eapply (finish_wp bs m hd None) with (X := X) (W := W); [| |cbn [oc app]; eapply ext_perm; [|exact E]; solve_perm|exact LB|exact KF|exact KS|exact KX|exact K0|exact QN|].
      + intros n ty I. apply HU. cbn in I |- *. tauto.
      + intros V. destruct (CodecFacts.result_parse_safe _ V).
      + intros t h9 E9 [V|(F & V)]; apply QS; try exact E9; [left; exact V|right; split; [exact F|]]. refine (worse_failure _ _ _ _ (lookup_valid _ _ _) V). discriminate.
  Qed.
  Lemma set_made c k v : exchange_set_create_from_cipher P c k = Val v -> made_exchange_set v.
  Proof.
    unfold exchange_set_create_from_cipher. destruct c as [c|]; [|discriminate]. destruct k as [k|]; [|discriminate]. destruct (aes256_decrypt _ _ _ _ _) as [b| |]; [|discriminate..]. cbn [rbind]. intros V.
    exact (proj1 (proj2 (proj2 (ParserFacts.set_parses P)) _ _ V)).
  Qed.
  Lemma open_wp (R : sha_ok P) (A : aead_len_ok P) (C : ctr_ok P) bs m id se draft secret (U W : Prop) fails h0 X h (Q : option hpa -> heap -> Prop) :
    (forall n ty, In ty (T_cipher_result :: T_key_exchange :: T_ec_key :: T_cipher_key :: buffer_kinds) -> fails n ty = true -> U) -> (open_pure (option_map b_bytes id) (ch_value se) m = UB -> U) -> (some_failure fails -> W) ->
    ext secret W h0 (combine bs (packet_fields m) ++ X) h -> length bs = length (packet_fields m) -> in_memory h0 (oc buf_cells id) -> in_memory h0 (ch_cells se) ->
    keeps_secret secret (packet_fields m) -> keeps_secret secret (sections (pq_header m)) -> keeps_secret secret (sections (pq_payload m)) ->
    keeps_secret secret (plain_of (fun hc => plain_of (of_message pb_exchange_set_unpack exchange_set_fields exchange_set_public)
                                (aes256_decrypt P (Some hc) None (gen_header_key P (cr_cipher hc) (ch_value se)) true) ++
                              plain_of xs_plain (exchange_set_create_from_cipher P (Some hc) (gen_header_key P (cr_cipher hc) (ch_value se))))
           (cipher_result_from_buffer (Some (pq_header m)))) ->
    (forall h1, ext secret W h0 X h1 -> some_failure fails -> Q None h1) ->
    (forall t h1, ext secret W h0 (pa_cells t ++ X) h1 ->
       open_pure (option_map b_bytes id) (ch_value se) m = Val (pa_value t) \/
       some_failure fails /\ read_worse (open_pure (option_map b_bytes id) (ch_value se) m) (pa_value t) -> Q (Some t) h1) ->
    wp U fails (header_cipher_result <-! h_cipher_result_from_bytes (pq_header m) ;;
              match header_cipher_result with
              | None => h_free_unpacked (bs, m) ;;; h_parse_failure SIG_VALID ERROR_CORRUPT_PACKET
              | Some hc =>
                  touch (hcr_addr hc) ;;;
                  header_key <-! h_gen_header_key P (hcr_cipher hc) se ;;
                  header <-! h_exchange_set_create_from_cipher P (Some hc) header_key draft ;;
                  h_cipher_key_destroy header_key ;;;
                  h_cipher_result_destroy (Some hc) ;;;
                  match header with
                  | None => h_free_unpacked (bs, m) ;;; h_parse_failure SIG_VALID ERROR_CORRUPT_PACKET
                  | Some hd =>
                      match id with
                      | None => h_parse_finish (bs, m) hd None
                      | Some i =>
                          found <-! h_exchange_set_find (Some hd) (Some i) ;;
                          match found with
                          | None => h_exchange_set_destroy (Some hd) ;;; h_free_unpacked (bs, m) ;;; h_parse_failure SIG_VALID ERROR_NODE_NOT_FOUND
                          | Some x => h_parse_finish (bs, m) hd (Some x)
                          end
                      end
                  end
              end)%h h Q.
  Proof.
    intros HU HB HW E LB MI MS KF KH KS KP QN QS. pose proof (keeps_none _ _ KF) as K0. unfold h_free_unpacked. cbn [fst].
    wstep. call (parse_op cr_cells cr_value _ _ _ _ _ (pq_header m) cipher_result_parse_rule).
    - intros V. destruct (CodecFacts.result_parse_safe _ V).
    - wstep. unpacked bs (packet_fields m) KF LB. eapply failure_wp; [eassumption|exact QN|]. intros t h8 E8 V. apply QS; [exact E8|]. left. unfold open_pure. rewrite N, V. reflexivity.
    - wstep. unpacked bs (packet_fields m) KF LB. eapply failure_wp; [eassumption|exact QN|]. intros t h8 E8 V. apply QS; [exact E8|]. right. split; [assumption|]. refine (worse_failure _ _ _ _ (open_valid _ _ _) V). discriminate.
    - rewrite V in KP. cbn [plain_of] in KP. set (key := gen_header_key P (cr_cipher (cr_value t)) (ch_value se)) in *.
      assert (KX : keeps_secret secret (plain_of xs_plain (exchange_set_create_from_cipher P (Some (cr_value t)) key))) by (refine (keeps_sub _ _ _ KP _); intros z I; apply in_or_app; right; exact I).
      assert (KC : keeps_secret secret (cr_plain (cr_value t))) by (refine (keeps_sub _ _ _ KH _); exact (cipher_result_sourced (Some (pq_header m)) _ V)).
      assert (FR : forall h2, ext secret W h0 (cr_cells t ++ combine bs (packet_fields m) ++ X) h2 -> exchange_set_create_from_cipher P (Some (cr_value t)) key = Null \/ some_failure fails ->
        wp U fails (h_cipher_result_destroy (Some t) ;;; h_free_all bs ;;; h_parse_failure SIG_VALID ERROR_CORRUPT_PACKET)%h h2 Q).
      { intros h2 E2 D. wstep. drop cipher_result_destroy_rule t; [exact KC|]. wstep. unpacked bs (packet_fields m) KF LB. eapply failure_wp; [eassumption|exact QN|]. intros u h8 E8 VU. apply QS; [exact E8|].
        destruct D as [D|D]; [left; unfold open_pure; rewrite V; fold key; rewrite D, VU; reflexivity|right; split; [exact D|]]. refine (worse_failure _ _ _ _ (open_valid _ _ _) VU). discriminate. }
      inside t cr_cells. wstep. wstep. wstep. call (gen_header_key_rule P R (hcr_cipher t) se).
      + destruct (gen_header_key _ _ _); discriminate.
      + unfold h_exchange_set_create_from_cipher, h_cipher_key_destroy. wstep. wstep. wstep. wstep. apply FR; [assumption|]. left. unfold key. cbn [cr_cipher cr_value].
        destruct (gen_header_key P (hcr_cipher t) (ch_value se)); [discriminate N|reflexivity].
      + unfold h_exchange_set_create_from_cipher, h_cipher_key_destroy. wstep. wstep. wstep. wstep. apply FR; [assumption|]. right. assumption.
      + apply lift_val in V0. change (gen_header_key P (hcr_cipher t) (ch_value se)) with key in V0. rewrite V0 in *.
        assert (OP : open_pure (option_map b_bytes id) (ch_value se) m =
          match exchange_set_create_from_cipher P (Some (cr_value t)) (Some (ck_value t0)) with
          | UB => UB | Null => Val (parse_failure SIG_VALID ERROR_CORRUPT_PACKET) | Val hd => lookup_pure (option_map b_bytes id) hd (pq_payload m) end).
        { unfold open_pure. rewrite V. fold key. rewrite V0. reflexivity. }
        rewrite OP in *. clear OP V0. clearbody key.
        wstep. call (exchange_set_create_from_cipher_rule P A C (Some t) (Some t0) draft); cbn [option_map] in *.
        * intros Z. apply HB. rewrite Z. reflexivity.
        * wstep. drop cipher_key_destroy_rule t0; [exact K0|]. apply FR; [assumption|]. left. assumption.
        * wstep. drop cipher_key_destroy_rule t0; [exact K0|]. apply FR; [assumption|]. right. assumption.
        * rewrite V0 in *. wstep. drop cipher_key_destroy_rule t0; [exact K0|]. wstep. drop cipher_result_destroy_rule t; [exact KC|].
          eapply lookup_wp with (hd := t1) (X := X) (W := W); [exact (set_made _ _ _ V0)| |exact HB|exact HW|eassumption|exact LB|exact MI|exact KF|exact KS|exact KX|exact QN|exact QS].
          intros n ty I. apply HU. cbn in I |- *. tauto.
  Qed.
  Lemma worse_invalid pure e : e <> E_SUCCESS -> read_worse pure (parse_failure SIG_INVALID e).
  Proof. intros NE. split; [intros r _; discriminate|left; exists SIG_INVALID, e; split; [reflexivity|exact NE]]. Qed.
  Lemma fields_kept secret m l : keeps_secret secret ([] :: pq_header m :: pq_payload m :: l) -> keeps_secret secret (packet_fields m).
  Proof.
    intros K. refine (keeps_sub _ _ _ K _). intros z [<-|I]; [left; reflexivity|]. apply in_app_iff in I. destruct I as [I|I].
    - unfold olist in I. destruct (pq_header m); [destruct I|]. destruct I as [<-|[]]. right. left. reflexivity.
    - unfold olist in I. destruct (pq_payload m); [destruct I|]. destruct I as [<-|[]]. right. right. left. reflexivity.
  Qed.
  Lemma parse_result_from_packet_rule (R : sha_ok P) (A : aead_len_ok P) (C : ctr_ok P) p id s draft :
    or_rule pa_cells pa_value [oc pt_cells p; oc buf_cells id; oc ch_cells s]
      (parse_result_from_packet P (gen_header_key P) (option_map pt_value p) (option_map b_bytes id) (option_map ch_value s))
      (read_worse (parse_result_from_packet P (gen_header_key P) (option_map pt_value p) (option_map b_bytes id) (option_map ch_value s)))
      (read_public P (option_map pt_value p) (option_map ch_value s)) []
      (T_openssl :: T_cipher_result :: T_key_exchange :: T_ec_key :: T_cipher_key :: buffer_kinds) some_failure (h_parse_result_from_packet P p id s draft).
  Proof.
    begin. assert (NULLED : parse_result_from_packet P (gen_header_key P) (option_map pt_value p) (option_map b_bytes id) (option_map ch_value s) = Val (parse_failure SIG_UNKNOWN ERROR_INVALID_INPUT) ->
      wp U fails (h_parse_failure SIG_UNKNOWN ERROR_INVALID_INPUT) h Q).
    { intros V. eapply failure_wp; [exact E|intros h1 E1 F; apply QN; [exact E1|right; exact F]|]. intros t h1 E1 VT. rewrite app_nil_r in E1. apply QS; [exact E1|]. left. rewrite VT. exact V. }
    destruct p as [p|]; [|exact (NULLED eq_refl)]. destruct s as [se|]; [|exact (NULLED eq_refl)]. clear NULLED. cbn [oc option_map] in *. rewrite read_eq in *.
    unfold h_parse_result_from_packet. unfold read_public in K. parts M0 pt_cells. match goal with G : in_memory _ (sig_cells _) |- _ => pose proof G as GS; unfold sig_cells in GS; memory end.
    parts M2 ch_cells. match goal with G : in_memory _ (id_cells (hch_node se)) |- _ => unfold id_cells in G; memory end. match goal with G : in_memory _ (key_cells (hid_key (hch_node se))) |- _ => pose proof G as GK; unfold key_cells in GK; memory end.
    do 10 wstep.
    assert (QN' : forall h1, ext secret W h [] h1 -> some_failure fails -> Q None h1) by (intros h1 E1 F; apply QN; [exact E1|right; exact F]).
    change (ek_curve (id_key (ch_node (ch_value se)))) with (hkey_curve (hid_key (hch_node se))) in *. change (es_curve (pt_signature (pt_value p))) with (hsig_curve (hpt_sig p)) in *. change (pt_content (pt_value p)) with (b_bytes (hpt_content p)) in *.
    destruct (negb (curve_id _ =? curve_id _)).
    { eapply failure_wp; [exact E|exact QN'|]. intros t h1 E1 V. rewrite app_nil_r in E1. apply QS; [exact E1|]. left. rewrite V. reflexivity. }
    wstep. eapply (answer_call _ _ _ _ _ (ec_verify_rule P (Some (hpt_sig p)) (Some (hid_key (hch_node se))) (Some (hpt_content p)))) with (W := W); [|intros []|exact E|arguments|exact K0|].
    { intros n ty I. apply HU. cbn in I |- *. tauto. }
    intros b h1 E1 D. clear E. cbn [option_map] in D. change (sig_value (hpt_sig p)) with (pt_signature (pt_value p)) in D. change (key_value (hid_key (hch_node se))) with (id_key (ch_node (ch_value se))) in D.
    destruct b; cbn [negb].
    2:{ eapply failure_wp; [exact E1|exact QN'|]. intros t h2 E2 V. rewrite app_nil_r in E2. apply QS; [exact E2|]. rewrite V. destruct D as [D|(_ & D)]; [left; rewrite <- D; reflexivity|right; split; [exact D|]]. apply worse_invalid. discriminate. }
    destruct D as [D|(D & _)]; [|discriminate D]. rewrite <- D in *. cbn [negb] in *. clear D. rd. generalize dependent (b_bytes (hpt_content p)). intros content HB K QN QS. clear QN. unfold unpack_pure in *.
    wstep. unfold h_unpack. destruct (pb_packet_unpack content) as [m|].
    2:{ wstep. eapply failure_wp; [exact E1|exact QN'|]. intros t h2 E2 V. rewrite app_nil_r in E2. apply QS; [exact E2|]. rewrite V. left. reflexivity. }
    assert (KF := fields_kept _ _ _ K). wstep. eapply alloc_all_wp; [exact E1|exact KF| |].
    { intros h2 E2 F. repeat wstep. eapply failure_wp; [exact E2|exact QN'|]. intros t h3 E3 V. rewrite app_nil_r in E3. apply QS; [exact E3|]. right. split; [exact F|]. refine (worse_failure _ _ _ _ (open_valid _ _ _) V). discriminate. }
    intros bs h2 E2 LB. wstep. cbn [snd].
    eapply (open_wp R A C bs m id se draft) with (X := []) (W := W); [|exact HB|exact HW|exact E2|exact LB|exact M1|exact M2|exact KF| | | |exact QN'|].
    - intros n ty I. apply HU. cbn in I |- *. tauto.
    - refine (keeps_sub _ _ _ K _). intros z I. do 3 right. apply in_or_app. left. exact I.
    - refine (keeps_sub _ _ _ K _). intros z I. do 3 right. apply in_or_app. right. apply in_or_app. left. exact I.
    - refine (keeps_sub _ _ _ K _). intros z I. do 3 right. apply in_or_app. right. apply in_or_app. right. exact I.
    - intros t h3 E3. rewrite app_nil_r in E3. exact (QS t h3 E3).
  Qed.
End reading.
