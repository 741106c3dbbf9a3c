(* Concrete objects to turn into bytes, for the theorems of Props/PropsHeapWrite.v. *)
From Verif.Base Require Import Bytes Monad.
From Verif.Model Require Import Buffer Cipher Ecdsa Kdf Prims Engine Identity Node Stream TransportPacket Keys Payload Exchange Packet Ctx Heap HeapObjects HeapMessages HeapWrite.
From Verif.Spec Require Import HeapSpec HeapObjectSpec CopySpec HeapWriteSpec.
From Verif.Proofs Require Import ToyPrims ToyObjects BytesFacts HeapFacts HeapObjectFacts HeapExamples HeapParseExamples HeapWriteFacts.
Local Open Scope N_scope.

Lemma lift_not_ub {A} (o : option A) : lift o <> UB.
Proof. destruct o; discriminate. Qed.
Lemma ecdsa_result_write_unpadded : write_rule sig_cells sig_value (fun v => lift (ecdsa_result_serialize (Some v))) (fun s b => b = unpadded s) nothing [] false h_ecdsa_result_serialize.
Proof.
  intros secret U W fails h0 X h t Q HU HB HW E M K QN QS. eapply ecdsa_result_write with (W := W); try eassumption.
  intros b h1 E1 [V|(F & V & _)]; apply QS; [exact E1|left; exact V|exact E1|right; split; [exact F|exact V]].
Qed.
(* there is an object in memory that can be turned into bytes *)
Definition writable {T V} (cells : T -> list cell) (value : T -> V) (pure : V -> res bytes) : Prop :=
  exists h t b, heap_ok h /\ in_memory h (cells t) /\ pure (value t) = Val b.
Lemma writable_by {T V} (cells : T -> list cell) (value : T -> V) made pure m : witnessed cells value made m ->
  match built m with Some t => match pure (value t) with Val _ => true | _ => false end | None => false end = true -> writable cells value pure.
Proof.
  intros (t & B & D & _ & _) E. rewrite B in E. destruct (pure (value t)) as [b| |] eqn:P; try discriminate E.
  exists (heap_of (cells t)), t, b. split; [apply heap_of_ok|]. split; [exact (heap_of_has _ D)|exact P].
Qed.
Lemma write_crashes_by {T V} (cells : T -> list cell) (value : T -> V) made m write fails : witnessed cells value made m ->
  match built m with
  | Some t => match write (Some t) fails (heap_of (cells t)) with None => true | Some _ => false end
  | None => false end = true -> write_crashes cells value made write.
Proof.
  intros (t & B & D & _ & M) E. rewrite B in E. exists fails, (heap_of (cells t)), t.
  split; [apply heap_of_ok|]. split; [exact (heap_of_has _ D)|]. split; [exact M|]. destruct (write _ _ _); [discriminate E|reflexivity].
Qed.
Lemma write_leaks_by {T V} (cells : T -> list cell) (value : T -> V) made m write fails : witnessed cells value made m ->
  match built m with
  | Some t => match write (Some t) fails (heap_of (cells t)) with
              | Some (None, h') => existsb (stays (heap_of (cells t)) h') (seq 0 (next h'))
              | _ => false
              end
  | None => false end = true -> write_leaks cells value made write.
Proof.
  intros (t & B & D & _ & M) E. rewrite B in E. destruct (write (Some t) fails (heap_of (cells t))) as [[[b|] h']|] eqn:W; try discriminate E.
  exists fails, (heap_of (cells t)), t, h'. split; [apply heap_of_ok|]. split; [exact (heap_of_has _ D)|]. split; [exact M|]. split; [exact W|].
  apply existsb_exists in E. destruct E as (x & _ & E). exists x. unfold stays in E.
  destruct (mem (heap_of (cells t)) x); [discriminate E|]. split; [reflexivity|]. destruct (mem h' x); [discriminate|discriminate E].
Qed.
Lemma spoils_by {T V} (cells : T -> list cell) (value : T -> V) pure made m write fails : witnessed cells value made m ->
  match built m with
  | Some t => match write (Some t) fails (heap_of (cells t)), pure (value t) with
              | Some (Some b, _), Val c => negb (beqb (b_bytes b) c)
              | _, _ => false
              end
  | None => false end = true -> write_spoils cells value pure made write.
Proof.
  intros (t & B & D & _ & M) E. rewrite B in E. destruct (write (Some t) fails (heap_of (cells t))) as [[[b|] h']|] eqn:W; try discriminate E.
  destruct (pure (value t)) as [c| |] eqn:P; try discriminate E.
  exists fails, (heap_of (cells t)), t, b, c, h'. split; [apply heap_of_ok|]. split; [exact (heap_of_has _ D)|]. split; [exact M|]. split; [exact W|].
  split; [exact P|]. intros F. rewrite F in E. rewrite (proj2 (beqb_spec c c) eq_refl) in E. discriminate E.
Qed.
(* a block with one byte in front of [s] *)
Definition has_after (l : list cell) (s : bytes) : option cell := find (fun c => beqb (tl (snd c)) s) l.
Lemma write_exposes_by {T V} (cells : T -> list cell) (value : T -> V) made secret_of m write : witnessed cells value made m ->
  match built m with
  | Some t => match write (Some t) never (heap_of (cells t)) with
              | Some (Some b, h') => match has_after (freed h') (secret_of (value t)) with Some _ => true | None => false end
              | _ => false
              end
  | None => false end = true -> write_exposes cells value secret_of write.
Proof.
  intros (t & B & D & _ & M) E. rewrite B in E. destruct (write (Some t) never (heap_of (cells t))) as [[[b|] h']|] eqn:W; try discriminate E.
  destruct (has_after (freed h') (secret_of (value t))) as [[x c]|] eqn:F; [|discriminate E].
  unfold has_after in F. apply find_some in F. destruct F as (I & F). cbn [snd] in F. apply beqb_spec in F.
  exists (heap_of (cells t)), t, b, h', (firstn 1 c), [], x. split; [apply heap_of_ok|]. split; [exact (heap_of_has _ D)|]. split; [exact W|]. split; [|intros []].
  rewrite app_nil_r, <- F. destruct c; exact I.
Qed.
Local Open Scope h_scope.
(* root keys whose signing key is public only *)
Definition mk_public_key : H (option hkey) := p <-# mk_buf 133 x01 ;; h_ec_key_create P521 (Some p) None.
Definition mk_rk_public : H (option hrk) := s <-! mk_public_key ;; n <-! mk_ck ;; r <-! mk_ck ;; h_root_keys_create s n r.
(* an exchange set without an empty slot *)
Definition mk_full : H (option (harr hkx)) :=
  a <-# h_array_new (T := hkx) 2 ;; x <-! mk_kx ;; y <-! mk_kx ;; hret (Some {| harr_addr := harr_addr a; harr_store := harr_store a; harr_items := [x; y] |}).
Definition mk_xs_full : H (option hxs) := k <-# mk_key ;; l <-# mk_full ;; h_exchange_set_create (Some k) (Some l).
Local Close Scope h_scope.
Lemma xs_full_witness : witnessed xs_cells xs_value fits_exchange_set mk_xs_full.
Proof. witness. Qed.
Lemma rk_public_witness : witnessed rk_cells rk_value made_root_keys mk_rk_public.
Proof. witness. Qed.
(* what goes wrong *)
Lemma ecdsa_result_spoiled_write : write_spoils sig_cells sig_value (fun v => lift (ecdsa_result_serialize (Some v))) made_signature h_ecdsa_result_serialize.
Proof. refine (spoils_by _ _ _ _ _ _ (only 4) sig_witness _). vm_compute. reflexivity. Qed.
Lemma identity_spoiled_write : write_spoils id_cells id_value (fun v => lift (identity_serialize (Some v))) made_identity h_identity_serialize.
Proof. refine (spoils_by _ _ _ _ _ _ (only 13) id_witness _). vm_compute. reflexivity. Qed.
Lemma chain_spoiled_write : write_spoils ch_cells ch_value (fun v => lift (chain_serialize (Some v))) made_chain h_chain_serialize.
Proof. refine (spoils_by _ _ _ _ _ _ (only 25) ch_witness _). vm_compute. reflexivity. Qed.
Lemma chain_private_spoiled_write : write_spoils ch_cells ch_value (fun v => lift (chain_serialize_private (Some v))) made_chain h_chain_serialize_private.
Proof. refine (spoils_by _ _ _ _ _ _ (only 25) ch_witness _). vm_compute. reflexivity. Qed.
Lemma keypair_spoiled_write : write_spoils kp_cells kp_value (fun v => lift (keypair_serialize (Some v))) made_keypair h_keypair_serialize.
Proof. refine (spoils_by _ _ _ _ _ _ (only 11) kp_witness _). vm_compute. reflexivity. Qed.
Lemma node_spoiled_write : write_spoils nd_cells nd_value (fun v => lift (node_serialize (Some v))) made_node h_node_serialize.
Proof. refine (spoils_by _ _ _ _ _ _ (only 36) nd_witness _). vm_compute. reflexivity. Qed.
Lemma ctx_spoiled_write : write_spoils cx_cells cx_value (fun v => lift (ctx_serialize (Some v))) (fits_ctx toy) h_ctx_serialize.
Proof. refine (spoils_by _ _ _ _ _ _ (only 45) cx_witness _). vm_compute. reflexivity. Qed.
Lemma packet_write_leaks : write_leaks pt_cells pt_value made_packet h_packet_serialize.
Proof. refine (write_leaks_by _ _ _ _ _ (only 7) pt_witness _). vm_compute. reflexivity. Qed.
Lemma node_write_leaks : write_leaks nd_cells nd_value made_node h_node_serialize.
Proof. refine (write_leaks_by _ _ _ _ _ (only 49) nd_witness _). vm_compute. reflexivity. Qed.
Lemma storage_keys_write_crashes_proto : write_crashes sk_cells sk_value made_storage_keys h_storage_keys_serialize.
Proof. refine (write_crashes_by _ _ _ _ _ (fun _ ty => match ty with T_proto => true | _ => false end) sk_witness _). vm_compute. reflexivity. Qed.
Lemma storage_keys_write_crashes_data : write_crashes sk_cells sk_value made_storage_keys h_storage_keys_serialize.
Proof. refine (write_crashes_by _ _ _ _ _ (fun _ ty => match ty with T_data => true | _ => false end) sk_witness _). vm_compute. reflexivity. Qed.
Lemma stream_key_write_crashes_proto : write_crashes st_cells st_value made_stream_key h_stream_key_serialize.
Proof. refine (write_crashes_by _ _ _ _ _ (fun _ ty => match ty with T_proto => true | _ => false end) st_witness _). vm_compute. reflexivity. Qed.
Lemma stream_key_write_crashes_buffer : write_crashes st_cells st_value made_stream_key h_stream_key_serialize.
Proof. refine (write_crashes_by _ _ _ _ _ (fun _ ty => match ty with T_buffer => true | _ => false end) st_witness _). vm_compute. reflexivity. Qed.
Lemma ctx_write_crashes_proto : write_crashes cx_cells cx_value (fits_ctx toy) h_ctx_serialize.
Proof. refine (write_crashes_by _ _ _ _ _ (only 51) cx_witness _). vm_compute. reflexivity. Qed.
Lemma root_keys_write_crashes : write_crashes rk_cells rk_value made_root_keys h_root_keys_serialize.
Proof. refine (write_crashes_by _ _ _ mk_rk_public _ never rk_public_witness _). vm_compute. reflexivity. Qed.
Lemma storage_keys_write_exposed : write_exposes sk_cells sk_value (fun v => ck_data (sk_local v)) h_storage_keys_serialize.
Proof. refine (write_exposes_by _ _ _ _ _ _ sk_witness _). vm_compute. reflexivity. Qed.
Lemma stream_key_write_exposed : write_exposes st_cells st_value (fun v => ck_data (sk_cipher v)) h_stream_key_serialize.
Proof. refine (write_exposes_by _ _ _ _ _ _ st_witness _). vm_compute. reflexivity. Qed.
Lemma ctx_write_exposed : write_exposes cx_cells cx_value (fun v => ck_data (sk_local (cx_storage v))) h_ctx_serialize.
Proof. refine (write_exposes_by _ _ _ _ _ _ cx_witness _). vm_compute. reflexivity. Qed.
