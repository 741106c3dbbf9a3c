(* Rules for the functions of Model/HeapProtocol.v that make and read key exchanges, and for
   those that encrypt and decrypt serialized objects. *)
From Verif.Base Require Import Bytes Monad.
From Verif.Model Require Import Buffer CString Cipher Ecdsa Kdf Prims Engine Keys Identity Node EcdhCipher Exchange Payload Packet Ctx Proto Heap HeapObjects HeapMessages HeapParse HeapWrite HeapEngine HeapProtocol.
From Verif.Spec Require Import HeapSpec HeapObjectSpec BufferSpec CopySpec HeapParseSpec HeapWriteSpec HeapEngineSpec HeapProtocolSpec.
From Verif.Proofs Require Import BufferFacts HeapFacts HeapObjectFacts HeapMessageFacts HeapCtxFacts HeapParseFacts HeapWriteFacts HeapEngineFacts HeapKdfFacts HeapProtocolFacts.
From Verif.Proofs Require CopyFacts ParserFacts.
From Coq Require Import Permutation ZifyBool ZifyNat ZifyN.
Local Open Scope N_scope.

Lemma keeps_app secret a b : keeps_secret secret a -> keeps_secret secret b -> keeps_secret secret (a ++ b).
Proof. intros (A & B) (_ & C). split; [exact A|]. intros x I. apply in_app_or in I. destruct I as [I|I]; [exact (B x I)|exact (C x I)]. Qed.
Lemma op_weaken {T V} (cells : T -> list cell) (value : T -> V) args args' pure public public' exposed exposed' untested untested' (leak leak' : schedule -> Prop) op :
  op_rule cells value args pure public exposed untested leak op -> (forall h, all_in_memory h args' -> all_in_memory h args) ->
  incl public public' -> incl exposed exposed' -> incl untested untested' -> (forall f, leak f -> leak' f) ->
  op_rule cells value args' pure public' exposed' untested' leak' op.
Proof.
  intros R A I1 I2 I3 L secret U W fails h Q HU HB HW OK M K KE QN QS. eapply R with (W := W); [|exact HB| |exact OK|apply A; exact M| | |exact QN|exact QS].
  - intros n ty I F. exact (HU n ty (I3 _ I) F).
  - intros F. exact (HW (L _ F)).
  - exact (keeps_sub _ _ _ K I1).
  - intros F. exact (keeps_sub _ _ _ (KE F) I2).
Qed.
Lemma or_weaken {T V} (cells : T -> list cell) (value : T -> V) args args' pure (worse worse' : V -> Prop) public public' exposed exposed' untested untested' (leak leak' : schedule -> Prop) op :
  or_rule cells value args pure worse public exposed untested leak op -> (forall h, all_in_memory h args' -> all_in_memory h args) -> (forall v, worse v -> worse' v) ->
  incl public public' -> incl exposed exposed' -> incl untested untested' -> (forall f, leak f -> leak' f) ->
  or_rule cells value args' pure worse' public' exposed' untested' leak' op.
Proof.
  intros R A WO I1 I2 I3 L secret U W fails h Q HU HB HW OK M K KE QN QS. eapply R with (W := W); [|exact HB| |exact OK|apply A; exact M| | |exact QN|].
  - intros n ty I F. exact (HU n ty (I3 _ I) F).
  - intros F. exact (HW (L _ F)).
  - exact (keeps_sub _ _ _ K I1).
  - intros F. exact (keeps_sub _ _ _ (KE F) I2).
  - intros t h1 E1 G. apply QS; [exact E1|]. destruct G as [G|(F & G)]; [left; exact G|right; split; [exact F|exact (WO _ G)]].
Qed.
Lemma op_or {T V} (cells : T -> list cell) (value : T -> V) args pure worse public exposed untested leak op :
  op_rule cells value args pure public exposed untested leak op -> or_rule cells value args pure worse public exposed untested leak op.
Proof.
  intros R secret U W fails h Q HU HB HW OK M K KE QN QS. eapply R with (W := W); try eassumption. intros t h1 E1 G. apply QS; [exact E1|left; exact G].
Qed.
Lemma op_same {T V} (cells : T -> list cell) (value : T -> V) args pure pure' public exposed untested leak op :
  op_rule cells value args pure public exposed untested leak op -> pure = pure' -> op_rule cells value args pure' public exposed untested leak op.
Proof. intros R <-. exact R. Qed.
(* serialize, use, clear *)
Lemma with_serialized {T V} (cells : T -> list cell) (value : T -> V) ser args1 pure1 public1 untested1 args2 (pure2 : bytes -> res V) (public2 : bytes -> list bytes) exposed2 untested2
    (leak2 : schedule -> Prop) (rest : hbuf -> H (option T)) :
  op_rule buf_cells b_bytes args1 pure1 public1 [] untested1 never_leaks_op ser ->
  (forall b, pure1 = Val (b_bytes b) -> op_rule cells value (buf_cells b :: args2) (pure2 (b_bytes b)) (public2 (b_bytes b)) exposed2 untested2 leak2 (rest b)) ->
  op_rule cells value (args1 ++ args2) (match pure1 with Val d => pure2 d | Null => Null | UB => UB end) (public1 ++ plain_of public2 pure1) exposed2 (untested1 ++ untested2) leak2
    (b <-? ser else hret tt ;; c <-! rest b ;; h_buffer_destroy_zero (Some b) ;;; hret c)%h.
Proof.
  intros R1 R2. begin. apply Forall_app in M. destruct M as (M1 & M2).
  assert (KA : keeps_secret secret public1) by (refine (keeps_sub _ _ _ K _); intros z I; apply in_or_app; left; exact I).
  wstep. eapply (op_call _ _ _ _ _ _ _ _ _ R1) with (W := W); [| |intros []|exact E|exact M1|exact KA|intros _; exact K0| |].
  - intros n ty I F. apply (HU n ty); [apply in_or_app; left; exact I|exact F].
  - intros V1. rewrite V1 in HB. apply HB. reflexivity.
  - intros h1 E1 [N|F]; wstep; apply QN; try exact E1; [left; rewrite N; reflexivity|right; exact F].
  - intros b h1 E1 V1. rewrite V1 in *. wstep. eapply (op_call _ _ _ _ _ _ _ _ _ (R2 b eq_refl)) with (W := W); [|exact HB|exact HW|exact E1| | |exact KE| |].
    + intros n ty I F. apply (HU n ty); [apply in_or_app; right; exact I|exact F].
    + apply Forall_cons; [exact (made_in_memory _ _ _ _ _ _ E1)|]. apply Forall_forall. intros c I. unfold all_in_memory in M2. rewrite Forall_forall in M2. exact (source_in_memory _ _ _ _ _ _ E1 (M2 c I)).
    + refine (keeps_sub _ _ _ K _). intros z I. apply in_or_app. right. exact I.
    + intros h2 E2 [N|F]; wstep; wipe b; wstep; gone; [left; exact N|right; exact F].
    + intros t h2 E2 V2. wstep. wipe b. wstep. there. exact V2.
Qed.
(* make bytes, read an object from them, clear *)
Lemma with_opened {T V} (cells : T -> list cell) (value : T -> V) dec args1 pure1 public1 exposed1 untested1 (leak1 : schedule -> Prop)
    (pure2 : bytes -> res V) (public2 : bytes -> list bytes) untested2 (leak2 : schedule -> bytes -> Prop) (parse : bytes -> H (option T)) :
  op_rule buf_cells b_bytes args1 pure1 public1 exposed1 untested1 leak1 dec ->
  parse_rule cells value pure2 public2 untested2 leak2 parse ->
  op_rule cells value args1 (match pure1 with Val d => pure2 d | Null => Null | UB => UB end) (public1 ++ plain_of public2 pure1) exposed1 (untested1 ++ untested2)
    (fun f => leak1 f \/ exists d, pure1 = Val d /\ leak2 f d) (h_open dec parse).
Proof.
  intros R1 R2. begin. unfold h_open.
  assert (KA : keeps_secret secret public1) by (refine (keeps_sub _ _ _ K _); intros z I; apply in_or_app; left; exact I).
  wstep. eapply (op_call _ _ _ _ _ _ _ _ _ R1) with (W := W); [| |intros F; apply HW; left; exact F|exact E|exact M|exact KA|exact KE| |].
  - intros n ty I F. apply (HU n ty); [apply in_or_app; left; exact I|exact F].
  - intros V1. rewrite V1 in HB. apply HB. reflexivity.
  - intros h1 E1 [N|F]; wstep; apply QN; try exact E1; [left; rewrite N; reflexivity|right; exact F].
  - intros b h1 E1 V1. rewrite V1 in *. rd. wstep. eapply R2 with (W := W); [|intros F; apply HW; right; exists (b_bytes b); split; [reflexivity|exact F]|exact E1| | |].
    + intros n ty I F. apply (HU n ty); [apply in_or_app; right; exact I|exact F].
    + refine (keeps_sub _ _ _ K _). intros z I. apply in_or_app. right. exact I.
    + intros h2 E2 [N|F]; wstep; wipe b; wstep; gone; [left; exact N|right; exact F].
    + intros t h2 E2 V2. wstep. wipe b. wstep. there. exact V2.
Qed.
Ltac args_tac := let h := fresh "h" in let M := fresh "M" in intros h M; unfold all_in_memory in *;
  repeat match goal with M : Forall _ (_ :: _) |- _ => let A := fresh in let B := fresh in pose proof (Forall_inv M) as A; pose proof (Forall_inv_tail M) as B; clear M end;
  repeat (apply Forall_cons; [assumption|]); apply Forall_nil.
Ltac absent f := begin; unfold f; wstep; gone; left; reflexivity.
Section exchange.
  Context (P : prims).
  Definition info_pure (s r : chain) (dev : bytes) (version : N) : option bytes :=
    if version =? 2 then buffer_create dev
    else if (version =? 3) || (version =? 4) then buffer_concat_multi [Some (ek_pub (id_key (ch_root s))); Some (ek_pub (id_key (ch_root r))); Some dev]
    else None.
  Definition hkdf_of (version : N) : option kdf_algo :=
    if (version =? 2) || (version =? 3) then Some KDF_HKDF_SHA256 else if version =? 4 then Some KDF_HKDF_SHA512 else None.
  Lemma hkdf_of_kind version a : hkdf_of version = Some a -> ka_kind a = KDF_HMAC_SHA2.
  Proof. unfold hkdf_of. repeat match goal with |- (if ?x then _ else _) = _ -> _ => destruct x end; intros V; try discriminate V; injection V as <-; reflexivity. Qed.
  Lemma meta_eq s r dev k psk version : exchange_kdf_meta (Some s) (Some (as_node dev r k)) psk version =
    match hkdf_of version with
    | None => None
    | Some a => match info_pure s r dev version with
                | None => None
                | Some i => match psk with
                            | None => Some {| km_algo := a; km_salt := None; km_info := Some i |}
                            | Some p => match buffer_create p with
                                        | Some p' => Some {| km_algo := a; km_salt := Some p'; km_info := Some i |}
                                        | None => None
                                        end
                            end
                end
    end.
  Proof.
    unfold exchange_kdf_meta, as_node. cbn [nd_keypair]. fold (hkdf_of version). destruct (hkdf_of version) as [a|] eqn:D; [|reflexivity]. pose proof (hkdf_of_kind _ _ D) as KK.
    change (exchange_kdf_info (Some s) (Some _) version) with (info_pure s r dev version). destruct (info_pure s r dev version) as [i|]; [|reflexivity].
    destruct psk as [p|]; cbn [buffer_copy]; [destruct (buffer_create p) as [p'|]|]; unfold kdf_meta_create; try rewrite KK; reflexivity.
  Qed.
  Lemma created b c : buffer_create b = Some c -> c = b /\ real b.
  Proof.
    unfold buffer_create. destruct (size_ok (blen b)) eqn:Z; [|discriminate]. intros V. apply Some_inj' in V. split; [symmetry; exact V|].
    unfold real, within_limit, library_limit. unfold size_ok, MAX_BUFFER_SIZE in Z. lia.
  Qed.
  Lemma info_in s r dev version i : info_pure s r dev version = Some i -> In i (exchange_info s r dev version) /\ real i.
  Proof.
    unfold info_pure, exchange_info. destruct (version =? 2).
    - intros V. destruct (created _ _ V) as (-> & RE). split; [left; reflexivity|exact RE].
    - destruct (_ || _); [|discriminate]. unfold buffer_concat_multi. intros V. destruct (created _ _ V) as (-> & RE). split; [|exact RE]. left. cbn [map obytes concat]. rewrite app_nil_r. reflexivity.
  Qed.
  Lemma meta_made s r dev k psk version m : exchange_kdf_meta (Some s) (Some (as_node dev r k)) psk version = Some m ->
    made_kdf_meta m /\ incl (km_infos (Some m)) (exchange_info s r dev version) /\ km_salts (Some m) = opt_list psk.
  Proof.
    rewrite meta_eq. destruct (hkdf_of version) as [a|] eqn:D; [|discriminate]. destruct (info_pure s r dev version) as [i|] eqn:I; [|discriminate]. destruct (info_in _ _ _ _ _ I) as (II & RI).
    pose proof (hkdf_of_kind _ _ D) as KK. 
    destruct psk as [p|]; [destruct (buffer_create p) as [p'|] eqn:B; [|discriminate]; destruct (created _ _ B) as (-> & RP)|]; intros V; apply Some_inj' in V; subst m; unfold made_kdf_meta, km_infos, km_salts; cbn [km_salt km_info km_algo]; rewrite KK.
    - split; [|split; [intros z [<-|[]]; exact II|reflexivity]]. split; [intros z Z; injection Z as <-; exact RP|]. split; [intros z Z; injection Z as <-; exact RI|]. left. discriminate.
    - split; [|split; [intros z [<-|[]]; exact II|reflexivity]]. split; [discriminate|]. split; [intros z Z; injection Z as <-; exact RI|]. right. discriminate.
  Qed.
  Lemma exchange_kdf_info_rule se dev re version : op_rule buf_cells b_bytes [ch_cells se; buf_cells dev; ch_cells re]
    (lift (info_pure (ch_value se) (ch_value re) (b_bytes dev) version)) [] [] [] never_leaks_op (h_exchange_kdf_info se dev re version).
  Proof.
    begin. unfold h_exchange_kdf_info, info_pure in *. destruct (version =? 2).
    - call (buffer_copy_op dev); [exact HB|gone; left; exact N|gone; right; exact F|there; exact V].
    - destruct (_ || _); [|wstep; gone; left; reflexivity].
      parts M0 ch_cells. parts M2 ch_cells.
      repeat match goal with G : in_memory _ (id_cells _) |- _ => unfold id_cells in G end. memory.
      repeat match goal with G : in_memory _ (key_cells _) |- _ => unfold key_cells in G end. memory.
      do 12 wstep. rd. rd. rd.
      at_heap ltac:(fun E => eapply concat_multi_wp; [exact E|exact K0|intros h1 E1 G; clear E|intros b h1 E1 G; clear E]).
      + gone. destruct G as [G|G]; [left|right; sfailed]. cbn [ch_value ch_root id_value id_key key_value ek_pub]. rewrite G. reflexivity.
      + there. cbn [ch_value ch_root id_value id_key key_value ek_pub]. rewrite G. reflexivity.
  Qed.
  Lemma exchange_kdf_meta_rule se dev re k psk version : op_rule km_cells km_value [ch_cells se; buf_cells dev; ch_cells re; oc buf_cells psk]
    (lift (exchange_kdf_meta (Some (ch_value se)) (Some (as_node (b_bytes dev) (ch_value re) k)) (option_map b_bytes psk) version))
    (exchange_info (ch_value se) (ch_value re) (b_bytes dev) version) (opt_list (option_map b_bytes psk)) [] never_leaks_op (h_exchange_kdf_meta se dev re psk version).
  Proof.
    rewrite meta_eq. begin. unfold h_exchange_kdf_meta. fold (hkdf_of version). destruct (hkdf_of version) as [a|] eqn:D; [|wstep; gone; left; reflexivity].
    pose proof (hkdf_of_kind _ _ D) as KK. wstep. call (exchange_kdf_info_rule se dev re version).
    - intros V. destruct (lift_ub _ V).
    - apply lift_null in N. rewrite N in *. wstep. gone. left. reflexivity.
    - wstep. gone. right. exact F.
    - apply lift_val in V. destruct (info_in _ _ _ _ _ V) as (II & _). rewrite V in *.
      assert (KI : keeps_secret secret [b_bytes t]) by exact (keeps_one _ _ _ K II). clear V II.
      wstep. destruct psk as [p|]; cbn [option_map oc] in *.
      + call (buffer_copy_op p).
        * intros V. destruct (lift_ub _ V).
        * apply lift_null in N. rewrite N in *. release t; [exact KI|]. gone. left. reflexivity.
        * release t; [exact KI|]. gone. right. exact F.
        * apply lift_val in V. rewrite V in *. destruct (created _ _ V) as (BB & _). wstep. unfold h_kdf_meta_create. rewrite KK. wstep. wstep.
          -- wstep. wstep. release t0; [refine (keeps_sub _ _ _ (KE _) _); [sfailed|]; intros z [<-|[]]; left; symmetry; exact BB|]. release t; [exact KI|]. gone. right. sfailed.
          -- wstep. wstep. there. reflexivity.
      + unfold h_buffer_copy. wstep. wstep. unfold h_kdf_meta_create. rewrite KK. wstep. wstep.
        * wstep. wstep. unfold h_buffer_destroy at 1. wstep. release t; [exact KI|]. gone. right. sfailed.
        * wstep. wstep. there. reflexivity.
  Qed.
  Lemma meta_node s r kp k psk version : nd_keypair r = Some kp ->
    exchange_kdf_meta (Some s) (Some r) psk version = exchange_kdf_meta (Some s) (Some (as_node (nd_dev_id r) (nd_chain r) k)) psk version.
  Proof. intros G. unfold exchange_kdf_meta. rewrite G. reflexivity. Qed.
  Lemma create_eq s r kp k data c psk version i : made_ec_key k -> nd_keypair r = Some kp ->
    fst (exchange_create_with_data P (Some s) (Some r) (Some k) data c psk version i) =
    match exchange_text P s r k data c psk version i with
    | Val t => match buffer_create (id_identifier (ch_node (nd_chain r))) with
               | Some id => Val {| kx_id := id; kx_key_id := kp_identifier kp; kx_text := t |}
               | None => Null
               end
    | Null => Null
    | UB => UB
    end.
  Proof.
    intros MK KP. unfold exchange_create_with_data, exchange_text. rewrite KP. unfold mbind, mlift, mres. rewrite (CopyFacts.ec_key_made _ MK). cbn [lift ecdh_ctx_create_key].
    destruct (exchange_kdf_meta (Some s) (Some r) psk version) as [m|]; [|reflexivity]. cbn [lift]. destruct (ecdh_cipher P _ data _ _ i) as [[t| |] i']; [|reflexivity..]. cbn [fst].
    cbn [buffer_copy]. destruct (buffer_create _); reflexivity.
  Qed.
  Lemma create_with_data_rule (R : rand_ok P) (A : aead_ok P) (C : ctr_ok P) (R1 : scrypt_ok P) (R2 : hkdf_ok P) se re k data c psk version s
      (MK : if_set made_ec_key (option_map key_value k)) :
    op_rule kx_cells kx_value [oc ch_cells se; oc nd_cells re; oc key_cells k; oc buf_cells data; oc buf_cells psk]
      (fst (exchange_create_with_data P (option_map ch_value se) (option_map nd_value re) (option_map key_value k) (option_map b_bytes data) c (option_map b_bytes psk) version s))
      (create_public P (option_map ch_value se) (option_map nd_value re) (option_map key_value k) (option_map b_bytes data) c (option_map b_bytes psk) version s)
      (create_exposed P (option_map ch_value se) (option_map nd_value re) (option_map key_value k) c (option_map b_bytes psk) version)
      (T_ec_key :: T_cipher_key :: T_key_exchange :: encrypt_untested None) some_failure
      (h_exchange_create_with_data P se re k data c psk version s).
  Proof.
    begin. unfold h_exchange_create_with_data. destruct se as [se|]; [|wstep; gone; left; reflexivity]. destruct re as [re|]; [|wstep; gone; left; reflexivity].
    destruct k as [k|]; [|wstep; gone; left; reflexivity]. cbn [option_map oc create_public create_exposed] in *. specialize (MK _ eq_refl).
    parts M1 nd_cells. wstep. wstep. change (nd_keypair (nd_value re)) with (option_map kp_value (hnd_keypair re)) in *.
    destruct (hnd_keypair re) as [kp|] eqn:HK; cbn [option_map cells_opt] in *.
    2:{ wstep. gone. left. unfold exchange_create_with_data. change (nd_keypair (nd_value re)) with (option_map kp_value (hnd_keypair re)). rewrite HK. reflexivity. }
    assert (HN : nd_keypair (nd_value re) = Some (kp_value kp)) by (cbn [nd_value nd_keypair]; rewrite HK; reflexivity).
    rewrite (create_eq _ _ _ _ _ _ _ _ _ MK HN) in *. unfold exchange_text, exchange_agreed in *. rewrite HN in *. rewrite (meta_node _ _ _ (key_value k) _ _ HN) in *.
    cbn [nd_value nd_dev_id nd_chain] in *. change (kp_key (kp_value kp)) with (key_value (hkp_key kp)) in *. change (kp_identifier (kp_value kp)) with (hkp_identifier kp) in *.
    match goal with G : in_memory _ (kp_cells kp) |- _ => parts G kp_cells end.
    match goal with G : in_memory _ (ch_cells (hnd_chain re)) |- _ => parts G ch_cells end.
    match goal with G : in_memory _ (id_cells (hch_node (hnd_chain re))) |- _ => parts G id_cells end.
    assert (KK : keeps_secret secret (key_copy_plain (key_value k))) by (refine (keeps_sub _ _ _ K _); intros z [<-|[]]; left; reflexivity).
    assert (KI : keeps_secret secret (exchange_info (ch_value se) (ch_value (hnd_chain re)) (b_bytes (hnd_dev_id re)) version)).
    { refine (keeps_sub _ _ _ K _). intros z I. right. apply in_or_app. left. exact I. }
    wstep. call (copy_op key_cells key_value _ _ _ _ _ k ec_key_copy_rule MK); [discriminate|discriminate N|wstep; gone; right; exact F|].
    assert (KV : key_value t = key_value k) by congruence. clear V.
    wstep. unfold h_ecdh_ctx_create_key at 1. wstep. wstep.
    { wstep. drop ec_key_destroy_rule t; [exact K0|]. gone. right. sfailed. }
    wstep. set (x := {| hex_addr := b; hex_local := t; hex_cipher := c |}).
    assert (EX : ex_value x = {| ex_local := key_value k; ex_cipher := c |}) by (unfold x, ex_value; cbn [hex_local hex_cipher]; rewrite KV; reflexivity).
    assert (E9 : ext secret W h (ex_cells x ++ []) h1) by (eapply ext_perm; [|exact E]; unfold x, ex_cells; cbn [hex_addr hex_local]; solve_perm).
    assert (CX : hex_cipher x = c) by reflexivity. clear E. clearbody x. clear t KV b.
    pose proof (meta_made (ch_value se) (ch_value (hnd_chain re)) (b_bytes (hnd_dev_id re)) (key_value k) (option_map b_bytes psk) version) as MM.
    wstep. call (exchange_kdf_meta_rule se (hnd_dev_id re) (hnd_chain re) (key_value k) psk version).
    - intros V. destruct (lift_ub _ V).
    - refine (keeps_sub _ _ _ (KE FE) _). intros z I. apply in_or_app. right. exact I.
    - apply lift_null in N. rewrite N in *. drop ecdh_ctx_destroy_rule x; [exact K0|]. gone. left. reflexivity.
    - drop ecdh_ctx_destroy_rule x; [exact K0|]. gone. right. exact F.
    - apply lift_val in V. rewrite V in *. destruct (MM _ eq_refl) as (MD & IN & SA). clear MM V.
      assert (KM : keeps_secret secret (km_infos (Some (km_value t)))) by (refine (keeps_sub _ _ _ KI _); exact IN).
      assert (KP : keeps_secret secret (km_plain (km_value t))) by exact KM.
      wstep. wstep. wstep.
      assert (MS : if_set made_kdf_meta (option_map km_value (Some t))) by (intros z Z; injection Z as <-; exact MD).
      call (ecdh_cipher_rule P R A C R1 R2 x data (Some (hkp_key kp)) (Some t) s MS); cbn [option_map] in *; rewrite ?EX in *.
      + intros V. rewrite V in HB. apply HB. reflexivity.
      + rewrite CX. apply keeps_app; [exact KM|]. refine (keeps_sub _ _ _ K _). intros z I. right. apply in_or_app. right. apply in_or_app. left. exact I.
      + unfold agree_exposed. rewrite SA. exact (KE FE).
      + wstep. drop kdf_meta_destroy_rule t; [exact KP|]. wstep. drop ecdh_ctx_destroy_rule x; [exact K0|]. wstep. gone. left. rewrite N. reflexivity.
      + wstep. drop kdf_meta_destroy_rule t; [exact KP|]. wstep. drop ecdh_ctx_destroy_rule x; [exact K0|]. wstep. gone. right. exact F.
      + rewrite V in *.
        assert (KC : keeps_secret secret (cr_plain (cr_value t0))) by (refine (keeps_sub _ _ _ K _); intros z I; right; apply in_or_app; right; apply in_or_app; right; exact I).
        wstep. drop kdf_meta_destroy_rule t; [exact KP|]. wstep. drop ecdh_ctx_destroy_rule x; [exact K0|]. wstep. wstep. wstep. wstep.
        call (buffer_copy_op (hid_identifier (hch_node (hnd_chain re)))).
        * intros V0. destruct (lift_ub _ V0).
        * apply lift_null in N. drop cipher_result_destroy_rule t0; [exact KC|]. gone. left. cbn [ch_value ch_node id_value id_identifier]. rewrite N. reflexivity.
        * drop cipher_result_destroy_rule t0; [exact KC|]. gone. right. exact F.
        * apply lift_val in V0. wstep. unfold h_key_exchange_create. wstep. wstep; [used|]. wstep. wstep. there. cbn [ch_value ch_node id_value id_identifier]. rewrite V0. reflexivity.
  Qed.
  Lemma wrap_eq se re k pk psk version s : fst (exchange_create_with_packet_key P (Some se) (Some re) (Some k) (Some pk) psk version s) =
    match lift (cipher_key_serialize (Some pk)) with
    | Val d => fst (exchange_create_with_data P (Some se) (Some re) (Some k) (Some d) (exchange_cipher_matching_cipher (ck_cipher pk)) psk version s)
    | Null => Null
    | UB => UB
    end.
  Proof. unfold exchange_create_with_packet_key, mbind, mlift, mres. destruct (cipher_key_serialize _); reflexivity. Qed.
  Lemma wrap_step (R : rand_ok P) (A : aead_ok P) (C : ctr_ok P) (R1 : scrypt_ok P) (R2 : hkdf_ok P) se re k pk psk version s (MK : made_ec_key (key_value k)) b :
    op_rule kx_cells kx_value (buf_cells b :: [ch_cells se; nd_cells re; key_cells k; ck_cells pk; oc buf_cells psk])
      (fst (exchange_create_with_data P (Some (ch_value se)) (Some (nd_value re)) (Some (key_value k)) (Some (b_bytes b)) (exchange_cipher_matching_cipher (hck_cipher pk)) (option_map b_bytes psk) version s))
      (create_public P (Some (ch_value se)) (Some (nd_value re)) (Some (key_value k)) (Some (b_bytes b)) (exchange_cipher_matching_cipher (hck_cipher pk)) (option_map b_bytes psk) version s)
      (create_exposed P (Some (ch_value se)) (Some (nd_value re)) (Some (key_value k)) (exchange_cipher_matching_cipher (hck_cipher pk)) (option_map b_bytes psk) version)
      (T_ec_key :: T_cipher_key :: T_key_exchange :: encrypt_untested None) some_failure
      (touch (hck_addr pk) ;;; h_exchange_create_with_data P (Some se) (Some re) (Some k) (Some b) (exchange_cipher_matching_cipher (hck_cipher pk)) psk version s)%h.
  Proof.
    begin. parts M4 ck_cells. wstep. wstep.
    assert (MS : if_set made_ec_key (option_map key_value (Some k))) by (intros z Z; injection Z as <-; exact MK).
    pose proof (create_with_data_rule R A C R1 R2 (Some se) (Some re) (Some k) (Some b) (exchange_cipher_matching_cipher (hck_cipher pk)) psk version s MS) as RR.
    eapply RR with (W := W); try eassumption. unfold all_in_memory, oc. repeat (apply Forall_cons; [assumption|]). apply Forall_nil.
  Qed.
  Lemma create_with_packet_key_rule (R : rand_ok P) (A : aead_ok P) (C : ctr_ok P) (R1 : scrypt_ok P) (R2 : hkdf_ok P) se re k pk psk version s
      (MK : if_set made_ec_key (option_map key_value k)) :
    op_rule kx_cells kx_value [oc ch_cells se; oc nd_cells re; oc key_cells k; oc ck_cells pk; oc buf_cells psk]
      (fst (exchange_create_with_packet_key P (option_map ch_value se) (option_map nd_value re) (option_map key_value k) (option_map ck_value pk) (option_map b_bytes psk) version s))
      (wrap_public P (option_map ch_value se) (option_map nd_value re) (option_map key_value k) (option_map ck_value pk) (option_map b_bytes psk) version s)
      (wrap_exposed P (option_map ch_value se) (option_map nd_value re) (option_map key_value k) (option_map ck_value pk) (option_map b_bytes psk) version)
      (T_ec_key :: T_cipher_key :: T_key_exchange :: encrypt_untested None) some_failure
      (h_exchange_create_with_packet_key P se re k pk psk version s).
  Proof.
    destruct se as [se|]; [|absent h_exchange_create_with_packet_key]. destruct re as [re|]; [|absent h_exchange_create_with_packet_key]. destruct k as [k|]; [|absent h_exchange_create_with_packet_key]. destruct pk as [pk|]; [|absent h_exchange_create_with_packet_key].
    eapply op_same; [|symmetry; exact (wrap_eq _ _ _ _ _ _ _)].
    eapply op_weaken; [exact (with_serialized kx_cells kx_value _ _ _ _ _ [ch_cells se; nd_cells re; key_cells k; ck_cells pk; oc buf_cells psk]
      (fun d => fst (exchange_create_with_data P (Some (ch_value se)) (Some (nd_value re)) (Some (key_value k)) (Some d) (exchange_cipher_matching_cipher (hck_cipher pk)) (option_map b_bytes psk) version s))
      (fun d => create_public P (Some (ch_value se)) (Some (nd_value re)) (Some (key_value k)) (Some d) (exchange_cipher_matching_cipher (hck_cipher pk)) (option_map b_bytes psk) version s) _ _ _
      (fun b => (touch (hck_addr pk) ;;; h_exchange_create_with_data P (Some se) (Some re) (Some k) (Some b) (exchange_cipher_matching_cipher (hck_cipher pk)) psk version s)%h)
      (write_op ck_cells ck_value _ _ _ _ pk cipher_key_write) (fun b _ => wrap_step R A C R1 R2 se re k pk psk version s (MK _ eq_refl) b))| | | | |].
    - intros h M. unfold all_in_memory in *. cbn [app oc] in *. repeat match goal with M : Forall _ (_ :: _) |- _ => inversion M; clear M; subst end. repeat (apply Forall_cons; [assumption|]). apply Forall_nil.
    - unfold wrap_public. cbn [option_map]. intros z I. apply in_app_or in I. destruct I as [[]|I]. destruct (cipher_key_serialize _); exact I.
    - apply incl_refl.
    - apply incl_refl.
    - auto.
  Qed.
  Lemma derive_eq s r kp k x psk version : made_ec_key (kp_key kp) -> nd_keypair r = Some kp ->
    exchange_derive_data P (Some s) (Some r) k (Some x) psk version =
    match exchange_kdf_meta (Some s) (Some r) psk version with
    | Some m => ecdh_decipher P {| ex_local := kp_key kp; ex_cipher := cr_cipher (kx_text x) |} (Some (kx_text x)) k (Some m)
    | None => Null
    end.
  Proof. intros MK KP. unfold exchange_derive_data. rewrite KP. rewrite (CopyFacts.ec_key_made _ MK). cbn [lift rbind ecdh_ctx_create_key]. destruct (exchange_kdf_meta _ _ _ _); reflexivity. Qed.
  Lemma derive_with_rule (A : aead_len_ok P) (C : ctr_ok P) (R1 : scrypt_ok P) (R2 : hkdf_ok P) se dev re k remote x psk version draft (MK : made_ec_key (key_value k)) :
    op_rule buf_cells b_bytes [ch_cells se; buf_cells dev; ch_cells re; key_cells k; oc key_cells remote; kx_cells x; oc buf_cells psk]
      (exchange_derive_data P (Some (ch_value se)) (Some (as_node (b_bytes dev) (ch_value re) (key_value k))) (option_map key_value remote) (Some (kx_value x)) (option_map b_bytes psk) version)
      (derive_public (Some (ch_value se)) (Some (as_node (b_bytes dev) (ch_value re) (key_value k))) version)
      (derive_exposed P (Some (ch_value se)) (Some (as_node (b_bytes dev) (ch_value re) (key_value k))) (option_map key_value remote) (Some (kx_value x)) (option_map b_bytes psk) version)
      [T_ec_key; T_cipher_key] some_failure (h_exchange_derive_with P se dev re k remote x psk version draft).
  Proof.
    begin. rewrite (derive_eq _ _ {| kp_identifier := 0; kp_key := key_value k; kp_signature := None |}) in * by (exact MK || reflexivity).
    unfold h_exchange_derive_with. cbn [kp_key] in *. unfold derive_public, derive_exposed, exchange_agreed in *.
    change (nd_keypair (as_node (b_bytes dev) (ch_value re) (key_value k))) with (Some {| kp_identifier := 0; kp_key := key_value k; kp_signature := None |}) in *.
    cbn [kp_key] in *. change (nd_chain (as_node (b_bytes dev) (ch_value re) (key_value k))) with (ch_value re) in *.
    change (nd_dev_id (as_node (b_bytes dev) (ch_value re) (key_value k))) with (b_bytes dev) in *. change (kx_text (kx_value x)) with (cr_value (hkx_text x)) in *.
    change (cr_cipher (cr_value (hkx_text x))) with (hcr_cipher (hkx_text x)) in *. parts M5 kx_cells.
    match goal with G : in_memory _ (cr_cells (hkx_text x)) |- _ => parts G cr_cells end.
    assert (KK : keeps_secret secret (key_copy_plain (key_value k))) by (refine (keeps_sub _ _ _ K _); intros z [<-|[]]; left; reflexivity).
    assert (KI : keeps_secret secret (exchange_info (ch_value se) (ch_value re) (b_bytes dev) version)) by (refine (keeps_sub _ _ _ K _); intros z I; right; exact I).
    wstep. call (copy_op key_cells key_value _ _ _ _ _ k ec_key_copy_rule MK); [discriminate|discriminate N|wstep; gone; right; exact F|].
    assert (KV : key_value t = key_value k) by congruence. clear V.
    wstep. wstep. wstep. wstep. wstep. unfold h_ecdh_ctx_create_key at 1. wstep. wstep.
    { wstep. drop ec_key_destroy_rule t; [exact K0|]. gone. right. sfailed. }
    wstep. set (y := {| hex_addr := b; hex_local := t; hex_cipher := hcr_cipher (hkx_text x) |}).
    assert (EX : ex_value y = {| ex_local := key_value k; ex_cipher := hcr_cipher (hkx_text x) |}) by (unfold y, ex_value; cbn [hex_local hex_cipher]; rewrite KV; reflexivity).
    at_heap ltac:(fun E => match type of E with ext _ _ _ _ ?h1 => assert (E9 : ext secret W h (ex_cells y ++ []) h1) by (eapply ext_perm; [|exact E]; unfold y, ex_cells; cbn [hex_addr hex_local]; solve_perm); clear E end).
    clearbody y. clear t KV b.
    pose proof (meta_made (ch_value se) (ch_value re) (b_bytes dev) (key_value k) (option_map b_bytes psk) version) as MM.
    wstep. call (exchange_kdf_meta_rule se dev re (key_value k) psk version).
    - intros V. destruct (lift_ub _ V).
    - refine (keeps_sub _ _ _ (KE FE) _). intros z I. apply in_or_app. right. exact I.
    - apply lift_null in N. rewrite N in *. drop ecdh_ctx_destroy_rule y; [exact K0|]. gone. left. reflexivity.
    - drop ecdh_ctx_destroy_rule y; [exact K0|]. gone. right. exact F.
    - apply lift_val in V. rewrite V in *. destruct (MM _ eq_refl) as (MD & IN & SA). clear MM V.
      assert (KM : keeps_secret secret (km_infos (Some (km_value t)))) by (refine (keeps_sub _ _ _ KI _); exact IN).
      assert (KP : keeps_secret secret (km_plain (km_value t))) by exact KM.
      assert (MS : if_set made_kdf_meta (option_map km_value (Some t))) by (intros z Z; injection Z as <-; exact MD).
      wstep. call (ecdh_decipher_rule P A C R1 R2 y (Some (hkx_text x)) remote (Some t) draft MS); cbn [option_map] in *; rewrite ?EX in *.
      + exact HB.
      + unfold agree_exposed. rewrite SA. exact (KE FE).
      + wstep. drop ecdh_ctx_destroy_rule y; [exact K0|]. wstep. drop kdf_meta_destroy_rule t; [exact KP|]. wstep. gone. left. exact N.
      + wstep. drop ecdh_ctx_destroy_rule y; [exact K0|]. wstep. drop kdf_meta_destroy_rule t; [exact KP|]. wstep. gone. right. exact F.
      + wstep. drop ecdh_ctx_destroy_rule y; [exact K0|]. wstep. drop kdf_meta_destroy_rule t; [exact KP|]. wstep. there. exact V.
  Qed.
  Lemma derive_node s r kp k x psk version : made_ec_key (kp_key kp) -> nd_keypair r = Some kp ->
    exchange_derive_data P (Some s) (Some (as_node (nd_dev_id r) (nd_chain r) (kp_key kp))) k (Some x) psk version = exchange_derive_data P (Some s) (Some r) k (Some x) psk version.
  Proof.
    intros MK KP. rewrite (derive_eq _ _ _ _ _ _ _ MK KP), (meta_node _ _ _ (kp_key kp) _ _ KP).
    rewrite (derive_eq _ _ {| kp_identifier := 0; kp_key := kp_key kp; kp_signature := None |}) by (exact MK || reflexivity). reflexivity.
  Qed.
  Lemma derive_data_rule (A : aead_len_ok P) (C : ctr_ok P) (R1 : scrypt_ok P) (R2 : hkdf_ok P) se re remote x psk version draft (MK : receiver_made (option_map nd_value re)) :
    op_rule buf_cells b_bytes [oc ch_cells se; oc nd_cells re; oc key_cells remote; oc kx_cells x; oc buf_cells psk]
      (exchange_derive_data P (option_map ch_value se) (option_map nd_value re) (option_map key_value remote) (option_map kx_value x) (option_map b_bytes psk) version)
      (derive_public (option_map ch_value se) (option_map nd_value re) version)
      (derive_exposed P (option_map ch_value se) (option_map nd_value re) (option_map key_value remote) (option_map kx_value x) (option_map b_bytes psk) version)
      [T_ec_key; T_cipher_key] some_failure (h_exchange_derive_data P se re remote x psk version draft).
  Proof.
    destruct se as [se|]; [|absent h_exchange_derive_data]. destruct re as [re|]; [|absent h_exchange_derive_data]. destruct x as [x|]; [|absent h_exchange_derive_data].
    begin. unfold h_exchange_derive_data. unfold oc in M0, M1, M3. parts M1 nd_cells. wstep. wstep.
    change (option_map nd_value (Some re)) with (Some (nd_value re)) in *. specialize (MK (nd_value re)). change (nd_keypair (nd_value re)) with (option_map kp_value (hnd_keypair re)) in MK.
    destruct (hnd_keypair re) as [kp|] eqn:HK; cbn [cells_opt] in *.
    2:{ wstep. gone. left. unfold exchange_derive_data. cbn [option_map]. change (nd_keypair (nd_value re)) with (option_map kp_value (hnd_keypair re)). rewrite HK. reflexivity. }
    specialize (MK _ eq_refl eq_refl). assert (HN : nd_keypair (nd_value re) = Some (kp_value kp)) by (cbn [nd_value nd_keypair]; rewrite HK; reflexivity).
    match goal with G : in_memory _ (kp_cells kp) |- _ => parts G kp_cells end. wstep. wstep.
    pose proof (derive_with_rule A C R1 R2 se (hnd_dev_id re) (hnd_chain re) (hkp_key kp) remote x psk version draft MK) as RR.
    pose proof (derive_node (ch_value se) (nd_value re) _ (option_map key_value remote) (kx_value x) (option_map b_bytes psk) version MK HN) as EQ.
    change (as_node (nd_dev_id (nd_value re)) (nd_chain (nd_value re)) (kp_key (kp_value kp))) with (as_node (b_bytes (hnd_dev_id re)) (ch_value (hnd_chain re)) (key_value (hkp_key kp))) in EQ.
    rewrite EQ in RR. eapply RR with (W := W); try eassumption.
    - unfold all_in_memory. repeat (apply Forall_cons; [assumption|]). apply Forall_nil.
    - unfold derive_public in *. cbn [option_map] in K. rewrite HN in K. exact K.
    - intros F. specialize (KE F). unfold derive_exposed, exchange_agreed in *. cbn [option_map] in KE. rewrite HN in KE. rewrite (meta_node _ _ _ (key_value (hkp_key kp)) _ _ HN) in KE. exact KE.
  Qed.
  Lemma key_of_rule dec args pure public exposed untested (leak : schedule -> Prop) : op_rule buf_cells b_bytes args pure public exposed untested leak dec ->
    op_rule ck_cells ck_value args (match pure with Val d => cipher_key_from_buffer (Some d) | Null => Null | UB => UB end) public exposed (untested ++ [T_cipher_key]) leak (h_key_of dec).
  Proof.
    intros R. change (h_key_of dec) with (h_open dec h_cipher_key_from_bytes). eapply op_weaken; [exact (with_opened _ _ _ _ _ _ _ _ _ _ _ _ _ _ R cipher_key_parse_rule)|auto| | | |].
    - intros z I. apply in_app_or in I. destruct I as [I|I]; [exact I|]. destruct pure; destruct I.
    - apply incl_refl.
    - apply incl_refl.
    - intros f [F|(d & _ & [])]. exact F.
  Qed.
  Lemma derive_key_eq s r k x psk version : exchange_derive_packet_key P (Some s) (Some r) k (Some x) psk version =
    match exchange_derive_data P (Some s) (Some r) k (Some x) psk version with Val d => cipher_key_from_buffer (Some d) | Null => Null | UB => UB end.
  Proof. unfold exchange_derive_packet_key. destruct (exchange_derive_data _ _ _ _ _ _ _); reflexivity. Qed.
  Lemma derive_packet_key_rule (A : aead_len_ok P) (C : ctr_ok P) (R1 : scrypt_ok P) (R2 : hkdf_ok P) se re remote x psk version draft (MK : receiver_made (option_map nd_value re)) :
    op_rule ck_cells ck_value [oc ch_cells se; oc nd_cells re; oc key_cells remote; oc kx_cells x; oc buf_cells psk]
      (exchange_derive_packet_key P (option_map ch_value se) (option_map nd_value re) (option_map key_value remote) (option_map kx_value x) (option_map b_bytes psk) version)
      (derive_public (option_map ch_value se) (option_map nd_value re) version)
      (derive_exposed P (option_map ch_value se) (option_map nd_value re) (option_map key_value remote) (option_map kx_value x) (option_map b_bytes psk) version)
      [T_ec_key; T_cipher_key] some_failure (h_exchange_derive_packet_key P se re remote x psk version draft).
  Proof.
    pose proof (derive_data_rule A C R1 R2 se re remote x psk version draft MK) as RR.
    destruct se as [se|]; [|absent h_exchange_derive_packet_key]. destruct re as [re|]; [|absent h_exchange_derive_packet_key]. destruct x as [x|]; [|absent h_exchange_derive_packet_key].
    eapply op_same; [|symmetry; exact (derive_key_eq _ _ _ _ _ _)]. unfold h_exchange_derive_packet_key. eapply op_weaken; [exact (key_of_rule _ _ _ _ _ _ _ RR)|auto|apply incl_refl|apply incl_refl| |auto].
    intros z I. cbn in *. tauto.
  Qed.
End exchange.
Section sealed.
  Context (P : prims).
  (* serialize, encrypt, clear *)
  Lemma seal_rule (R : rand_ok P) (A : aead_ok P) (C : ctr_ok P) ser args pure public untested key s :
    op_rule buf_cells b_bytes args pure public [] untested never_leaks_op ser ->
    op_rule cr_cells cr_value (args ++ [ck_cells key]) (match pure with Val d => fst (aes256_encrypt P (Some d) None (Some (ck_value key)) None s) | Null => Null | UB => UB end)
      (public ++ nonce_of P (Some (ck_value key)) s) [] (untested ++ encrypt_untested None) never_leaks_op (h_seal P ser key s).
  Proof.
    intros RS. unfold h_seal. eapply op_weaken; [refine (with_serialized cr_cells cr_value ser args pure public untested [ck_cells key] (fun d => fst (aes256_encrypt P (Some d) None (Some (ck_value key)) None s))
      (fun _ => nonce_of P (Some (ck_value key)) s) [] (encrypt_untested None) never_leaks_op _ RS _)|auto| |apply incl_refl|apply incl_refl|auto].
    - intros b _. eapply op_weaken; [exact (aes256_encrypt_rule P R A C (Some b) None (Some key) None s)| |apply incl_refl|apply incl_refl|apply incl_refl|intros f F; destruct (no_iv _ _ F)].
      intros h M. unfold all_in_memory in *. repeat match goal with M : Forall _ (_ :: _) |- _ => inversion M; clear M; subst end. repeat (apply Forall_cons; [first [assumption|apply in_memory_nil]|]). apply Forall_nil.
    - intros z I. apply in_app_or in I. apply in_or_app. destruct I as [I|I]; [left; exact I|right]. destruct pure; [exact I|destruct I..].
  Qed.
  Lemma exchange_set_encrypt_rule (R : rand_ok P) (A : aead_ok P) (C : ctr_ok P) x k s : op_rule cr_cells cr_value [oc xs_cells x; oc ck_cells k]
    (fst (exchange_set_encrypt P (option_map xs_value x) (option_map ck_value k) s)) (opt_plain xs_written (option_map xs_value x) ++ nonce_of P (option_map ck_value k) s) []
    (encrypt_untested None) never_leaks_op (h_exchange_set_encrypt P x k s).
  Proof.
    destruct x as [x|]; [|absent h_exchange_set_encrypt]. destruct k as [k|]; [|absent h_exchange_set_encrypt].
    eapply op_same; [exact (seal_rule R A C _ _ _ _ _ k s (write_op xs_cells xs_value _ _ _ _ x exchange_set_write))|].
    unfold exchange_set_encrypt, mbind, mlift, mres. cbn [option_map]. destruct (exchange_set_serialize _); reflexivity.
  Qed.
  Lemma payload_encrypt_rule (R : rand_ok P) (A : aead_ok P) (C : ctr_ok P) x k s : op_rule cr_cells cr_value [oc py_cells x; oc ck_cells k]
    (fst (payload_encrypt P (option_map py_value x) (option_map ck_value k) s)) (nonce_of P (option_map ck_value k) s) []
    (encrypt_untested None) never_leaks_op (h_payload_encrypt P x k s).
  Proof.
    destruct x as [x|]; [|absent h_payload_encrypt]. destruct k as [k|]; [|absent h_payload_encrypt].
    eapply op_same; [exact (seal_rule R A C _ _ _ _ _ k s (write_op py_cells py_value _ _ _ _ x payload_write))|].
    unfold payload_encrypt, mbind, mlift, mres. cbn [option_map]. destruct (payload_serialize _); reflexivity.
  Qed.
  Lemma root_keys_export_rule (R : rand_ok P) (A : aead_ok P) (C : ctr_ok P) x k s : op_rule cr_cells cr_value [oc rk_cells x; oc ck_cells k]
    (fst (root_keys_export P (option_map rk_value x) (option_map ck_value k) s)) (nonce_of P (option_map ck_value k) s) []
    (encrypt_untested None) never_leaks_op (h_root_keys_export P x k s).
  Proof.
    destruct x as [x|]; [|absent h_root_keys_export]. destruct k as [k|]; [|absent h_root_keys_export].
    eapply op_same; [exact (seal_rule R A C _ _ _ _ _ k s (write_op rk_cells rk_value _ _ _ _ x root_keys_write))|].
    unfold root_keys_export, mbind, mlift, mres. cbn [option_map]. destruct (root_keys_serialize _); reflexivity.
  Qed.
  (* decrypt, parse, clear *)
  Lemma exchange_set_create_from_cipher_rule (A : aead_len_ok P) (C : ctr_ok P) c k draft : op_rule xs_cells xs_value [oc cr_cells c; oc ck_cells k]
    (exchange_set_create_from_cipher P (option_map cr_value c) (option_map ck_value k))
    (plain_of (of_message pb_exchange_set_unpack exchange_set_fields exchange_set_public) (aes256_decrypt P (option_map cr_value c) None (option_map ck_value k) true)) []
    [T_cipher_result; T_key_exchange; T_ec_key] never_leaks_op (h_exchange_set_create_from_cipher P c k draft).
  Proof.
    destruct c as [c|]; [|absent h_exchange_set_create_from_cipher]. destruct k as [k|]; [|absent h_exchange_set_create_from_cipher].
    eapply op_weaken; [eapply op_same; [exact (with_opened _ _ _ _ _ _ _ _ _ _ _ _ _ _ (aes256_decrypt_rule P A C (Some c) None (Some k) true draft) (exchange_set_bytes_rule P))|]| | | | |].
    - unfold exchange_set_create_from_cipher. cbn [option_map]. destruct (aes256_decrypt _ _ _ _ _); reflexivity.
    - intros h M. unfold all_in_memory in *. repeat match goal with M : Forall _ (_ :: _) |- _ => inversion M; clear M; subst end. repeat (apply Forall_cons; [first [assumption|apply in_memory_nil]|]). apply Forall_nil.
    - intros z I. exact I.
    - apply incl_refl.
    - intros z I. exact I.
    - intros f [[]|(d & _ & [])].
  Qed.
  Lemma payload_create_from_cipher_rule (A : aead_len_ok P) (C : ctr_ok P) c k draft : op_rule py_cells py_value [oc cr_cells c; oc ck_cells k]
    (payload_create_from_cipher P (option_map cr_value c) (option_map ck_value k))
    (plain_of (of_message pb_payload_unpack payload_fields payload_public) (aes256_decrypt P (option_map cr_value c) None (option_map ck_value k) true)) []
    [T_packet_meta] never_leaks_op (h_payload_create_from_cipher P c k draft).
  Proof.
    destruct c as [c|]; [|absent h_payload_create_from_cipher]. destruct k as [k|]; [|absent h_payload_create_from_cipher].
    eapply op_weaken; [eapply op_same; [exact (with_opened _ _ _ _ _ _ _ _ _ _ _ _ _ _ (aes256_decrypt_rule P A C (Some c) None (Some k) true draft) payload_bytes_rule)|]| | | | |].
    - unfold payload_create_from_cipher. cbn [option_map]. destruct (aes256_decrypt _ _ _ _ _); reflexivity.
    - intros h M. unfold all_in_memory in *. repeat match goal with M : Forall _ (_ :: _) |- _ => inversion M; clear M; subst end. repeat (apply Forall_cons; [first [assumption|apply in_memory_nil]|]). apply Forall_nil.
    - intros z I. exact I.
    - apply incl_refl.
    - intros z I. exact I.
    - intros f [[]|(d & _ & [])].
  Qed.
End sealed.
