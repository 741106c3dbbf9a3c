(* Concrete objects in memory, for the theorems about copying and destroying. *)
From Verif.Base Require Import Bytes.
From Verif.Model Require Import Buffer Cipher Ecdsa Kdf Prims Engine Fingerprint Identity Node Stream TransportPacket EcdhCipher Handshake Transport Keys Payload Exchange Packet Ctx Heap HeapObjects HeapMessages.
From Verif.Spec Require Import HeapSpec HeapObjectSpec BufferSpec CopySpec.
From Verif.Proofs Require Import ToyPrims.
From Coq Require Import ZifyBool ZifyNat ZifyN.

(* memory that holds just these blocks *)
Definition heap_of (cs : list cell) : heap :=
  {| mem := fun b => option_map snd (find (fun p => Nat.eqb (fst p) b) cs); next := S (list_max (map fst cs)); freed := [] |}.
Lemma heap_of_ok cs : heap_ok (heap_of cs).
Proof.
  intros b L. cbn in *. destruct (find (fun p => Nat.eqb (fst p) b) cs) as [[b' c]|] eqn:F; [|reflexivity].
  apply find_some in F. destruct F as (I & E). apply Nat.eqb_eq in E. cbn in E. subst b'.
  assert (G : b <= list_max (map fst cs)); [|lia].
  pose proof (proj1 (list_max_le (map fst cs) (list_max (map fst cs))) (le_n _)) as A. rewrite Forall_forall in A. apply A.
  apply (in_map fst _ _ I).
Qed.
Fixpoint distinct (l : list block) : bool := match l with [] => true | x :: r => negb (existsb (Nat.eqb x) r) && distinct r end.
Lemma distinct_ok l : distinct l = true -> NoDup l.
Proof.
  induction l as [|x r IH]; [constructor|]. cbn. intros E. apply andb_prop in E. destruct E as (A & B). constructor; [|exact (IH B)].
  intros I. apply Bool.negb_true_iff in A. rewrite (proj2 (existsb_exists _ _)) in A; [discriminate A|]. exists x. split; [exact I|apply Nat.eqb_refl].
Qed.
Lemma heap_of_has cs : distinct (map fst cs) = true -> in_memory (heap_of cs) cs.
Proof.
  intros D. apply distinct_ok in D. split; [exact D|]. intros b c I. cbn. induction cs as [|[b' c'] r IH]; [destruct I|].
  cbn in D. inversion D as [|? ? N D']; subst. cbn [find fst]. destruct I as [E|I].
  - injection E as -> ->. rewrite Nat.eqb_refl. reflexivity.
  - destruct (Nat.eqb_spec b' b) as [->|]; [exfalso; apply N; exact (in_map fst _ _ I)|]. exact (IH D' I).
Qed.
(* the object a constructor gives when started in empty memory *)
Definition built {T} (m : H (option T)) : option T := match m never (heap_of []) with Some (o, _) => o | None => None end.
(* there is such an object: in memory, in a shape the library makes *)
Definition witnessed {T V} (cells : T -> list cell) (value : T -> V) (made : V -> Prop) (m : H (option T)) : Prop :=
  exists t, built m = Some t /\ distinct (map fst (cells t)) = true /\ (1 < length (cells t)) /\ made (value t).

Lemma Some_same {A} (a b : A) : Some a = Some b -> b = a.
Proof. intros E. injection E as E. symmetry. exact E. Qed.
Local Open Scope h_scope.
Definition mk_buf (n : nat) (b : byte) : H (option hbuf) := h_buffer_create (repeat b n).
Definition mk_key : H (option hkey) := p <-# mk_buf 133 x01 ;; s <-# mk_buf 40 x02 ;; h_ec_key_create P521 (Some p) (Some s).
Definition mk_sig : H (option hsig) := p <-# mk_buf 100 x03 ;; h_ecdsa_result_create P521 SHA512 (Some p).
Definition mk_ck : H (option hck) := p <-# mk_buf 32 x04 ;; h_cipher_key_create AES256_GCM (Some p).
Definition mk_cr : H (option hcr) :=
  i <-# mk_buf 12 x05 ;; t <-# mk_buf 20 x06 ;; g <-# mk_buf 16 x07 ;; h_cipher_result_create AES256_GCM (Some i) (Some t) (Some g).
Definition mk_km : H (option hkm) := s <-# mk_buf 32 x08 ;; i <-# mk_buf 8 x09 ;; h_kdf_meta_create KDF_HKDF_SHA256 (Some s) (Some i).
Definition mk_kr : H (option hkr) := m <-# mk_km ;; b <-# mk_buf 32 x0a ;; h_kdf_result_create (Some m) (Some b).
Definition mk_fp : H (option hfp) := b <-# mk_buf 64 x0b ;; h_fingerprint_create FP_SHA512 (Some b).
Definition mk_id (ty : identity_type) (signed : bool) : H (option hid) :=
  i <-# mk_buf 32 x0c ;; k <-# mk_key ;; g <-! (if signed then mk_sig else hret None) ;; h_identity_create ty (Some i) (Some k) g.
Definition mk_ch : H (option hch) :=
  r <-# mk_id ID_ROOT false ;; n <-# mk_id ID_NODE true ;; c <-# h_chain_create (Some r) (Some n) ;; o <-! mk_buf 9 x0d ;;
  hret (Some {| hch_addr := hch_addr c; hch_root := hch_root c; hch_node := hch_node c; hch_status := S_VALID; hch_cache := o |}).
Definition mk_kp : H (option hkp) := k <-# mk_key ;; g <-! mk_sig ;; h_keypair_create 7 (Some k) g.
Definition mk_nd : H (option hnd) := d <-# mk_buf 32 x0e ;; c <-# mk_ch ;; k <-! mk_kp ;; h_node_create (Some d) (Some c) k.
Definition mk_me : H (option hme) := t <-# mk_buf 32 x0f ;; h_packet_meta_create 60 0 (Some t) 1000.
Definition mk_py : H (option hpy) := m <-# mk_me ;; b <-# mk_buf 30 x10 ;; h_payload_create (Some m) (Some b).
Definition mk_kx : H (option hkx) := i <-# mk_buf 32 x11 ;; t <-# mk_cr ;; h_key_exchange_create (Some i) 3 (Some t).
Definition mk_arr {T} (item : H (option T)) : H (option (harr T)) :=
  a <-# h_array_new (T := T) 2 ;; x <-! item ;; hret (Some {| harr_addr := harr_addr a; harr_store := harr_store a; harr_items := [x; None] |}).
Definition mk_xs : H (option hxs) := k <-# mk_key ;; l <-# mk_arr mk_kx ;; h_exchange_set_create (Some k) (Some l).
Definition mk_pt : H (option hpt) := c <-# mk_buf 50 x12 ;; g <-# mk_sig ;; h_packet_create 4 (Some c) (Some g).
Definition mk_pa : H (option hpa) := s <-! mk_xs ;; e <-! mk_kx ;; p <-! mk_cr ;; h_parse_result_create s e p SIG_VALID E_SUCCESS.
Definition mk_de : H (option hde) := p <-! mk_py ;; k <-! mk_ck ;; h_decode_result_create E_SUCCESS p k.
Definition mk_en : H (option hen) := k <-# mk_ck ;; p <-# mk_pt ;; h_encoder_result_create (Some k) (Some p).
Definition mk_rk : H (option hrk) := s <-! mk_key ;; n <-! mk_ck ;; r <-! mk_ck ;; h_root_keys_create s n r.
Definition mk_sk : H (option hsk) := l <-! mk_ck ;; r <-! mk_ck ;; h_storage_keys_create l r.
Definition mk_di : H (option hdi) := d <-! mk_buf 16 x13 ;; s <-! mk_buf 32 x14 ;; m <-! mk_buf 32 x15 ;; e <-! mk_buf 32 x16 ;; h_dev_info_create d s m e.
Definition mk_st : H (option hst) := k <-! mk_ck ;; e <-! mk_buf 64 x17 ;; u <-! mk_buf 5 x18 ;; h_stream_key_create k e 512 u.
Definition mk_si : H (option hsi) :=
  s <-# mk_buf 64 x19 ;; x <-# alloc T_stream_iv [] ;; hret (Some {| hsi_addr := x; hsi_cipher := AES256_GCM; hsi_seed := s; hsi_count := 4 |}).
Definition mk_sc : H (option hsc) :=
  k <-# mk_st ;; i <-! mk_si ;; x <-# alloc T_stream_ctx [] ;;
  hret (Some {| hsc_addr := x; hsc_key := k; hsc_last := 9; hsc_dir := ENCODE; hsc_iv := i |}).
Definition mk_tr : H (option htr) := s <-! mk_buf 32 x1a ;; h_root_key_create s AES256_GCM 11 12.
Definition mk_tp : H (option htp) :=
  n <-! mk_buf 40 x1b ;; b <-# mk_buf 20 x1c ;; m <-! mk_buf 10 x1d ;; x <-# alloc T_transport_packet [] ;;
  hret (Some {| htp_addr := x; htp_network := n; htp_body := b; htp_mac := m; htp_meta := meta_data 3 0 |}).
Definition mk_ex : H (option hex) := k <-! mk_key ;; h_ecdh_ctx_create_key k AES256_GCM.
Definition mk_hr : H (option hhr) := l <-! mk_st ;; r <-! mk_st ;; h_handshake_res_create l r.
Definition mk_hs : H (option hhs) :=
  l <-! mk_ch ;; r <-! mk_ch ;; p <-! mk_arr (mk_buf 6 x1e) ;; c <-# h_handshake_create_list l r p 512 ;; e <-! mk_key ;; k <-! mk_tr ;; t <-! mk_tp ;;
  hret (Some {| hhs_addr := hhs_addr c; hhs_status := H_IN_PROGRESS; hhs_initiator := true; hhs_local := hhs_local c;
                hhs_remote := hhs_remote c; hhs_evo := hhs_evo c; hhs_packets := hhs_packets c; hhs_ephemeral := e; hhs_root := k;
                hhs_pending := t |}).
Definition mk_tc : H (option htc) :=
  l <-# mk_ch ;; r <-! mk_ch ;; t <-! mk_sc ;; u <-! mk_sc ;; p <-! mk_hs ;; x <-# alloc T_transport_ctx [] ;;
  hret (Some {| htc_addr := x; htc_local := l; htc_remote := r; htc_tx := t; htc_rx := u; htc_handshake := p; htc_status := T_ACTIVE;
                htc_evo := 512; htc_err := E_NONE |}).
Definition mk_cx : H (option hcx) := i <-! mk_di ;; c <-! mk_ch ;; s <-! mk_sk ;; h_ctx_create toy i c s.
Definition mk_gr : H (option hgr) := c <-! mk_cx ;; k <-! mk_ck ;; r <-! mk_rk ;; h_gen_result_create c k r.
Definition mk_cp : H (option hcp) :=
  p <-# mk_pt ;; s <-# mk_ch ;; r <-# mk_pa ;; x <-# alloc T_ctx_packet [] ;; hret (Some {| hcp_addr := x; hcp_packet := p; hcp_sender := s; hcp_parse := r |}).

(* closing [made] of a concrete value *)
Ltac closed :=
  repeat match goal with
  | |- real _ => vm_compute; split; [reflexivity|discriminate]
  | |- if_set _ (Some _) => let x := fresh in let E := fresh in intros x E; apply Some_same in E; subst x
  | |- if_set _ None => let x := fresh in let E := fresh in intros x E; discriminate E
  | |- _ /\ _ => split
  | |- made_items _ _ => unfold made_items, xa_value, pl_value, arr_value; cbn
  | |- Forall _ [] => constructor
  | |- Forall _ (_ :: _) => constructor
  | |- exists _, Some _ = Some _ /\ _ => eexists; split; [reflexivity|]
  | |- _ = ENCODE -> _ => intros _
  | |- Some _ <> None \/ _ => left
  | |- _ <> _ => discriminate
  | |- (_ < _)%N => vm_compute; reflexivity
  | |- (_ <= _)%N => vm_compute; discriminate
  | |- @eq N _ _ => vm_compute; reflexivity
  | |- @eq (option _) _ _ => vm_compute; reflexivity
  | |- ?m _ _ => progress (unfold m; cbn)
  | |- ?m _ => progress (unfold m; cbn)
  end.
Ltac witness :=
  eexists; split; [vm_compute; reflexivity|]; split; [vm_compute; reflexivity|]; split; [vm_compute; lia|]; closed.
Lemma key_witness : witnessed key_cells key_value made_ec_key mk_key.
Proof. witness. Qed.
Lemma sig_witness : witnessed sig_cells sig_value made_signature mk_sig.
Proof. witness. Qed.
Lemma ck_witness : witnessed ck_cells ck_value made_cipher_key mk_ck.
Proof. witness. Qed.
Lemma cr_witness : witnessed cr_cells cr_value made_cipher_result mk_cr.
Proof. witness. Qed.
Lemma km_witness : witnessed km_cells km_value made_kdf_meta mk_km.
Proof. witness. Qed.
Lemma kr_witness : witnessed kr_cells kr_value made_kdf_result mk_kr.
Proof. witness. Qed.
Lemma fp_witness : witnessed fp_cells fp_value made_fingerprint mk_fp.
Proof. witness. Qed.
Lemma ch_witness : witnessed ch_cells ch_value made_chain mk_ch.
Proof. witness. Qed.
Lemma kp_witness : witnessed kp_cells kp_value made_keypair mk_kp.
Proof. witness. Qed.
Lemma nd_witness : witnessed nd_cells nd_value made_node mk_nd.
Proof. witness. Qed.
Lemma me_witness : witnessed me_cells me_value made_packet_meta mk_me.
Proof. witness. Qed.
Lemma py_witness : witnessed py_cells py_value made_payload mk_py.
Proof. witness. Qed.
Lemma kx_witness : witnessed kx_cells kx_value made_key_exchange mk_kx.
Proof. witness. Qed.
Lemma xs_witness : witnessed xs_cells xs_value fits_exchange_set mk_xs.
Proof. witness. Qed.
Lemma pt_witness : witnessed pt_cells pt_value made_packet mk_pt.
Proof. witness. Qed.
Lemma pa_witness : witnessed pa_cells pa_value fits_parse_result mk_pa.
Proof. witness. Qed.
Lemma de_witness : witnessed de_cells de_value made_decode_result mk_de.
Proof. witness. Qed.
Lemma en_witness : witnessed en_cells en_value made_encoder_result mk_en.
Proof. witness. Qed.
Lemma rk_witness : witnessed rk_cells rk_value made_root_keys mk_rk.
Proof. witness. Qed.
Lemma sk_witness : witnessed sk_cells sk_value made_storage_keys mk_sk.
Proof. witness. Qed.
Lemma di_witness : witnessed di_cells di_value made_dev_info mk_di.
Proof. witness. Qed.
Lemma st_witness : witnessed st_cells st_value made_stream_key mk_st.
Proof. witness. Qed.
Lemma si_witness : witnessed si_cells si_value made_stream_iv mk_si.
Proof. witness. Qed.
Lemma sc_witness : witnessed sc_cells sc_value made_stream_ctx mk_sc.
Proof. witness. Qed.
Lemma tr_witness : witnessed tr_cells tr_value made_root_key mk_tr.
Proof. witness. Qed.
Lemma tp_witness : witnessed tp_cells tp_value made_tpacket mk_tp.
Proof. witness. Qed.
Lemma ex_witness : witnessed ex_cells ex_value made_ecdh_ctx mk_ex.
Proof. witness. Qed.
Lemma hr_witness : witnessed hr_cells hr_value made_handshake_res mk_hr.
Proof. witness. Qed.
Lemma hs_witness : witnessed hs_cells hs_value fits_handshake mk_hs.
Proof. witness. Qed.
Lemma tc_witness : witnessed tc_cells tc_value fits_transport mk_tc.
Proof. witness. Qed.
Lemma cx_witness : witnessed cx_cells cx_value (fits_ctx toy) mk_cx.
Proof. witness. Qed.
Lemma gr_witness : witnessed gr_cells gr_value (fits_gen_result toy) mk_gr.
Proof. witness. Qed.
Lemma buf_witness : witnessed buf_cells b_bytes real (mk_buf 4 x1f).
Proof. witness. Qed.
Lemma id_witness : witnessed id_cells id_value made_identity (mk_id ID_NODE true).
Proof. witness. Qed.
Lemma nodes_witness : witnessed (arr_cells nd_cells) (arr_value nd_value) (made_items made_node) (mk_arr mk_nd).
Proof. witness. Qed.
Lemma xa_witness : witnessed xa_cells xa_value (made_items made_key_exchange) (mk_arr mk_kx).
Proof. witness. Qed.
Lemma pl_witness : witnessed pl_cells pl_value (made_items real) (mk_arr (mk_buf 6 x1e)).
Proof. witness. Qed.
Lemma cp_witness : witnessed cp_cells cp_value (fun _ => True) mk_cp.
Proof. witness. exact I. Qed.

(* such an object exists in memory *)
Lemma witness_in_memory {T V} (cells : T -> list cell) (value : T -> V) made m : witnessed cells value made m ->
  exists h t, heap_ok h /\ in_memory h (cells t) /\ made (value t) /\ 1 < length (cells t).
Proof.
  intros (t & _ & D & L & M). exists (heap_of (cells t)), t. split; [apply heap_of_ok|]. split; [exact (heap_of_has _ D)|]. split; [exact M|exact L].
Qed.
(* what goes wrong, by computation *)
Lemma crashes_by {T V} (cells : T -> list cell) (value : T -> V) made m copy fails : witnessed cells value made m ->
  (match built m with
   | Some t => match copy (Some t) fails (heap_of (cells t)) with None => true | Some _ => false end
   | None => false end) = true -> crashes cells value made copy.
Proof.
  intros (t & B & D & _ & M) E. rewrite B in E. exists fails, (heap_of (cells t)), t.
  split; [apply heap_of_ok|]. split; [exact (heap_of_has _ D)|]. split; [exact M|]. destruct (copy _ _ _); [discriminate E|reflexivity].
Qed.
Lemma leaks_by {T V} (cells : T -> list cell) (value : T -> V) made m (copy : option T -> H (option T)) fails b : witnessed cells value made m ->
  (match built m with
   | Some t => match copy (Some t) fails (heap_of (cells t)) with
               | Some (None, h') => match mem (heap_of (cells t)) b, mem h' b with None, Some _ => true | _, _ => false end
               | _ => false
               end
   | None => false end) = true -> leaks cells value made copy.
Proof.
  intros (t & B & D & _ & M) E. rewrite B in E. destruct (copy (Some t) fails (heap_of (cells t))) as [[[t'|] h']|] eqn:C; try discriminate E.
  exists fails, (heap_of (cells t)), t, h'.
  split; [apply heap_of_ok|]. split; [exact (heap_of_has _ D)|]. split; [exact M|]. split; [exact C|]. exists b.
  destruct (mem (heap_of (cells t)) b); [discriminate E|]. split; [reflexivity|]. destruct (mem h' b); [discriminate|discriminate E].
Qed.
Lemma drops_by {T V} (cells : T -> list cell) (value : T -> V) made m (copy : option T -> H (option T)) fails (f : V -> bool) : witnessed cells value made m ->
  (match built m with
   | Some t => match copy (Some t) fails (heap_of (cells t)) with
               | Some (Some t', _) => f (value t) && negb (f (value t'))
               | _ => false
               end
   | None => false end) = true -> drops cells value made copy.
Proof.
  intros (t & B & D & _ & M) E. rewrite B in E. destruct (copy (Some t) fails (heap_of (cells t))) as [[[t'|] h']|] eqn:C; try discriminate E.
  exists fails, (heap_of (cells t)), t, t', h'.
  split; [apply heap_of_ok|]. split; [exact (heap_of_has _ D)|]. split; [exact M|]. split; [exact C|]. intros EV. rewrite EV in E.
  destruct (f (value t)); discriminate E.
Qed.
Definition only (n : nat) : schedule := fun k _ => Nat.eqb k n.
Definition is_set {A} (o : option A) : bool := match o with Some _ => true | None => false end.
Lemma ec_key_crashes : crashes key_cells key_value made_ec_key h_ec_key_copy.
Proof. refine (crashes_by _ _ _ _ _ (fun _ ty => match ty with T_ec_key => true | _ => false end) key_witness _). vm_compute. reflexivity. Qed.
Lemma ecdsa_result_crashes : crashes sig_cells sig_value made_signature h_ecdsa_result_copy.
Proof. refine (crashes_by _ _ _ _ _ (fun _ ty => match ty with T_ecdsa_result => true | _ => false end) sig_witness _). vm_compute. reflexivity. Qed.
Lemma cipher_key_crashes : crashes ck_cells ck_value made_cipher_key h_cipher_key_copy.
Proof. refine (crashes_by _ _ _ _ _ (fun _ ty => match ty with T_cipher_key => true | _ => false end) ck_witness _). vm_compute. reflexivity. Qed.
Lemma cipher_result_crashes : crashes cr_cells cr_value made_cipher_result h_cipher_result_copy.
Proof. refine (crashes_by _ _ _ _ _ (fun _ ty => match ty with T_cipher_result => true | _ => false end) cr_witness _). vm_compute. reflexivity. Qed.
Lemma packet_meta_crashes : crashes me_cells me_value made_packet_meta h_packet_meta_copy.
Proof. refine (crashes_by _ _ _ _ _ (fun _ ty => match ty with T_packet_meta => true | _ => false end) me_witness _). vm_compute. reflexivity. Qed.
Lemma key_exchange_crashes : crashes kx_cells kx_value made_key_exchange h_key_exchange_copy.
Proof. refine (crashes_by _ _ _ _ _ (fun _ ty => match ty with T_key_exchange => true | _ => false end) kx_witness _). vm_compute. reflexivity. Qed.
Lemma ctx_crashes : crashes cx_cells cx_value (fits_ctx toy) (h_ctx_copy toy).
Proof. refine (crashes_by _ _ _ _ _ (fun _ ty => match ty with T_ctx => true | _ => false end) cx_witness _). vm_compute. reflexivity. Qed.

(* the request number that fails, and a block that stays behind *)
Lemma cipher_result_leaks : leaks cr_cells cr_value made_cipher_result h_cipher_result_copy.
Proof. refine (leaks_by _ _ _ _ _ (only 12) 8 cr_witness _). vm_compute. reflexivity. Qed.
Lemma kdf_meta_leaks : leaks km_cells km_value made_kdf_meta h_kdf_meta_copy.
Proof. refine (leaks_by _ _ _ _ _ (only 10) 6 km_witness _). vm_compute. reflexivity. Qed.
Lemma kdf_result_leaks : leaks kr_cells kr_value made_kdf_result h_kdf_result_copy.
Proof. refine (leaks_by _ _ _ _ _ (only 16) 9 kr_witness _). vm_compute. reflexivity. Qed.
Lemma decode_result_leaks : leaks de_cells de_value made_decode_result h_decode_result_copy.
Proof. refine (leaks_by _ _ _ _ _ (only 20) 17 de_witness _). vm_compute. reflexivity. Qed.
Lemma cipher_result_drops : drops cr_cells cr_value made_cipher_result h_cipher_result_copy.
Proof. refine (drops_by _ _ _ _ _ (only 10) (fun v => is_set (cr_text v)) cr_witness _). vm_compute. reflexivity. Qed.
Lemma identity_drops : drops id_cells id_value made_identity h_identity_copy.
Proof. refine (drops_by _ _ _ _ _ (only 19) (fun v => is_set (id_signature v)) id_witness _). vm_compute. reflexivity. Qed.
Lemma parse_result_drops : drops pa_cells pa_value fits_parse_result h_parse_result_copy.
Proof. refine (drops_by _ _ _ _ _ (only 38) (fun v => is_set (pa_set v)) pa_witness _). vm_compute. reflexivity. Qed.
Lemma decode_result_drops : drops de_cells de_value made_decode_result h_decode_result_copy.
Proof. refine (drops_by _ _ _ _ _ (only 11) (fun v => is_set (de_payload v)) de_witness _). vm_compute. reflexivity. Qed.
