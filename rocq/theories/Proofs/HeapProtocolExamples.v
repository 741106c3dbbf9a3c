(* Concrete arguments for the theorems of Props/PropsHeapProtocol.v, and what goes wrong with some. *)
From Verif.Base Require Import Bytes Monad.
From Verif.Model Require Import Buffer Cipher Ecdsa Kdf Prims Engine Keys Identity Node EcdhCipher Exchange Payload Packet Ctx Heap HeapObjects HeapMessages HeapEngine HeapProtocol.
From Verif.Spec Require Import HeapSpec HeapObjectSpec CopySpec HeapParseSpec HeapEngineSpec HeapProtocolSpec.
From Verif.Proofs Require Import ToyPrims ToyObjects BytesFacts HeapFacts HeapObjectFacts HeapExamples HeapEngineFacts HeapEngineExamples.
Local Open Scope N_scope.

(* when the conditions of the partial theorems hold, nothing is left behind *)
Lemma unprotect_fits P (i p : option hbuf) :
  (forall x y, i = Some x -> p = Some y -> ~ not_a_ciphertext P (b_bytes x) (b_bytes y) /\
     forall m, kdf_meta_create_with_buffer (Some (b_bytes x)) = Val m -> ~ empty_bcrypt (km_algo m) (b_bytes y)) ->
  ~ unprotect_leak P (option_map b_bytes i) (option_map b_bytes p) never.
Proof. intros C. pose proof (kdf_decipher_fits P i p C) as K. destruct i, p; exact K. Qed.
Lemma reading_fits (b : option hbuf) : (forall x, b = Some x -> ~ odd_signature (b_bytes x)) -> ~ ctx_read_leak (option_map b_bytes b) never.
Proof.
  intros C [F|(x & E & O)]; [exact (never_fails F)|]. destruct b as [y|]; [|discriminate E]. apply Some_same in E. subst x. exact (C y eq_refl O).
Qed.
(* the operation gives an object that passes the test *)
Definition performed_with {T} (test : T -> bool) (args : list (list cell)) (op : H (option T)) : Prop :=
  exists h t h', heap_ok h /\ all_in_memory h args /\ op never h = Some (Some t, h') /\ test t = true.
Lemma performed_with_by {T} (test : T -> bool) args (op : H (option T)) : apart args = true ->
  match op never (heap_of (concat args)) with Some (Some t, _) => test t | _ => false end = true -> performed_with test args op.
Proof.
  intros D E. destruct (op never (heap_of (concat args))) as [[[t|] h']|] eqn:W; try discriminate E.
  exists (heap_of (concat args)), t, h'. split; [apply heap_of_ok|]. split; [exact (apart_ok _ D)|]. split; [exact W|exact E].
Qed.
Ltac by_running_with := apply performed_with_by; vm_compute; reflexivity.

(* objects at the addresses from [n] on *)
Local Open Scope nat_scope.
Definition placed (A : Type) : Type := block -> A * block.
Definition pret {A} (a : A) : placed A := fun n => (a, n).
Definition pbind {A B} (m : placed A) (f : A -> placed B) : placed B := fun n => let (a, n') := m n in f a n'.
Notation "x <-@ m ;; k" := (pbind m (fun x => k)) (at level 61, m at next level, right associativity).
Definition fresh : placed block := fun n => (n, S n).
Definition pl_opt {A B} (f : A -> placed B) (o : option A) : placed (option B) :=
  match o with Some a => b <-@ f a ;; pret (Some b) | None => pret None end.
Fixpoint pl_list {A B} (f : A -> placed B) (l : list A) : placed (list B) :=
  match l with [] => pret [] | a :: r => b <-@ f a ;; c <-@ pl_list f r ;; pret (b :: c) end.
Definition pl_buf (b : bytes) : placed hbuf := a <-@ fresh ;; d <-@ fresh ;; pret {| b_addr := a; b_data := d; b_bytes := b |}.
Definition pl_key (k : ec_key) : placed hkey :=
  a <-@ fresh ;; p <-@ pl_buf (ek_pub k) ;; q <-@ pl_opt pl_buf (ek_pri k) ;;
  pret {| hkey_addr := a; hkey_curve := ek_curve k; hkey_pub := p; hkey_pri := q |}.
Definition pl_sig (s : ecdsa_result) : placed hsig :=
  a <-@ fresh ;; d <-@ pl_buf (es_sig s) ;; pret {| hsig_addr := a; hsig_curve := es_curve s; hsig_digest := es_digest s; hsig_data := d |}.
Definition pl_ck (k : cipher_key) : placed hck :=
  a <-@ fresh ;; d <-@ pl_buf (ck_data k) ;; pret {| hck_addr := a; hck_cipher := ck_cipher k; hck_data := d |}.
Definition pl_cr (r : cipher_result) : placed hcr :=
  a <-@ fresh ;; i <-@ pl_buf (cr_iv r) ;; t <-@ pl_opt pl_buf (cr_text r) ;; g <-@ pl_opt pl_buf (cr_tag r) ;;
  pret {| hcr_addr := a; hcr_cipher := cr_cipher r; hcr_iv := i; hcr_text := t; hcr_tag := g |}.
Definition pl_id (x : identity) : placed hid :=
  a <-@ fresh ;; i <-@ pl_buf (id_identifier x) ;; k <-@ pl_key (id_key x) ;; s <-@ pl_opt pl_sig (id_signature x) ;;
  pret {| hid_addr := a; hid_type := id_type x; hid_identifier := i; hid_key := k; hid_sig := s |}.
Definition pl_ch (x : chain) : placed hch :=
  a <-@ fresh ;; r <-@ pl_id (ch_root x) ;; n <-@ pl_id (ch_node x) ;; c <-@ pl_opt pl_buf (ch_cache x) ;;
  pret {| hch_addr := a; hch_root := r; hch_node := n; hch_status := ch_status x; hch_cache := c |}.
Definition pl_kp (x : keypair) : placed hkp :=
  a <-@ fresh ;; k <-@ pl_key (kp_key x) ;; s <-@ pl_opt pl_sig (kp_signature x) ;;
  pret {| hkp_addr := a; hkp_identifier := kp_identifier x; hkp_key := k; hkp_sig := s |}.
Definition pl_nd (x : node) : placed hnd :=
  a <-@ fresh ;; d <-@ pl_buf (nd_dev_id x) ;; c <-@ pl_ch (nd_chain x) ;; k <-@ pl_opt pl_kp (nd_keypair x) ;; o <-@ pl_opt pl_buf (nd_cache x) ;;
  pret {| hnd_addr := a; hnd_dev_id := d; hnd_chain := c; hnd_keypair := k; hnd_status := nd_status x; hnd_cache := o |}.
Definition pl_me (x : packet_meta) : placed hme :=
  a <-@ fresh ;; t <-@ pl_buf (me_tag x) ;; pret {| hme_addr := a; hme_ttl := me_ttl x; hme_bor := me_bor x; hme_tag := t; hme_type := me_type x |}.
Definition pl_py (x : payload) : placed hpy :=
  a <-@ fresh ;; m <-@ pl_me (py_meta x) ;; b <-@ pl_buf (py_body x) ;; pret {| hpy_addr := a; hpy_meta := m; hpy_body := b |}.
Definition pl_kx (x : key_exchange) : placed hkx :=
  a <-@ fresh ;; i <-@ pl_buf (kx_id x) ;; t <-@ pl_cr (kx_text x) ;; pret {| hkx_addr := a; hkx_id := i; hkx_key_id := kx_key_id x; hkx_text := t |}.
Definition pl_xs (x : exchange_set) : placed hxs :=
  a <-@ fresh ;; k <-@ pl_key (xs_sender x) ;; b <-@ fresh ;; c <-@ fresh ;; d <-@ fresh ;; l <-@ pl_list (pl_opt pl_kx) (xs_items x) ;;
  pret {| hxs_addr := a; hxs_sender := k; hxs_items := {| harr_addr := b; harr_store := Some (c, d); harr_items := l |} |}.
Definition pl_pt (x : packet) : placed hpt :=
  a <-@ fresh ;; c <-@ pl_buf (pt_content x) ;; s <-@ pl_sig (pt_signature x) ;; pret {| hpt_addr := a; hpt_version := pt_version x; hpt_content := c; hpt_sig := s |}.
Definition pl_pa (x : parse_result) : placed hpa :=
  a <-@ fresh ;; s <-@ pl_opt pl_xs (pa_set x) ;; e <-@ pl_opt pl_kx (pa_exchange x) ;; p <-@ pl_opt pl_cr (pa_payload x) ;;
  pret {| hpa_addr := a; hpa_set := s; hpa_exchange := e; hpa_payload := p; hpa_status := pa_status x; hpa_err := pa_err x |}.
Definition pl_cp (x : ctx_packet) : placed hcp :=
  a <-@ fresh ;; p <-@ pl_pt (cp_packet x) ;; s <-@ pl_ch (cp_sender x) ;; r <-@ pl_pa (cp_parse x) ;;
  pret {| hcp_addr := a; hcp_packet := p; hcp_sender := s; hcp_parse := r |}.
Definition pl_rk (x : root_keys) : placed hrk :=
  a <-@ fresh ;; s <-@ pl_key (rk_signature x) ;; n <-@ pl_ck (rk_node x) ;; r <-@ pl_ck (rk_remote x) ;;
  pret {| hrk_addr := a; hrk_sig := s; hrk_node := n; hrk_remote := r |}.
Definition pl_sk (x : storage_keys) : placed hsk :=
  a <-@ fresh ;; l <-@ pl_ck (sk_local x) ;; r <-@ pl_ck (sk_remote x) ;; pret {| hsk_addr := a; hsk_local := l; hsk_remote := r |}.
Definition pl_di (x : dev_info) : placed hdi :=
  a <-@ fresh ;; d <-@ pl_buf (di_dev_salt x) ;; s <-@ pl_opt pl_buf (di_system_salt x) ;; m <-@ pl_buf (di_msg_proto_id x) ;; v <-@ pl_buf (di_srv_comm_id x) ;;
  pret {| hdi_addr := a; hdi_dev := d; hdi_system := s; hdi_msg := m; hdi_srv := v |}.
Definition pl_cx (x : ctx) : placed hcx :=
  a <-@ fresh ;; d <-@ pl_di (cx_dev x) ;; c <-@ pl_ch (cx_chain x) ;; s <-@ pl_sk (cx_storage x) ;; k <-@ pl_ck (cx_header_key x) ;;
  pret {| hcx_addr := a; hcx_dev := d; hcx_chain := c; hcx_storage := s; hcx_header := k; hcx_version := cx_version x |}.
Definition pl_gr (x : gen_result) : placed hgr :=
  a <-@ fresh ;; c <-@ pl_cx (gr_ctx x) ;; k <-@ pl_ck (gr_recovery_key x) ;; r <-@ pl_rk (gr_root_keys x) ;;
  pret {| hgr_addr := a; hgr_ctx := c; hgr_recovery := k; hgr_root := r |}.
Definition at_ {A} (n : block) (m : placed A) : A := fst (m n).

(* a sender (chain 1), a recipient (node 3) and a message, as values *)
Definition v_key : cipher_key := {| ck_cipher := AES256_GCM; ck_data := repeat x07 32 |}.
Definition v_other : cipher_key := {| ck_cipher := AES256_GCM; ck_data := repeat x55 32 |}.
Definition v_payload : payload := {| py_meta := {| me_ttl := 60; me_bor := 7; me_tag := [x74; x61; x67]; me_type := 1000 |}; py_body := [x68; x69; x21] |}.
Definition v_sender : chain := Eval vm_compute in toy_chain 1.
Definition v_node : node := Eval vm_compute in toy_node 3.
Definition v_exchange_key : ec_key := Eval vm_compute in toy_key 50.
Definition v_private : ec_key := Eval vm_compute in kp_key (toy_keypair 3 7).
Definition no_text : cipher_result := {| cr_cipher := AES256_GCM; cr_iv := []; cr_text := None; cr_tag := None |}.
Definition v_exchange : key_exchange := Eval vm_compute in
  val {| kx_id := []; kx_key_id := 0; kx_text := no_text |}
    (exchange_create_with_packet_key toy (Some v_sender) (Some v_node) (Some v_exchange_key) (Some v_key) None 4 0).
Definition v_set : exchange_set := Eval vm_compute in
  {| xs_sender := {| ek_curve := P521; ek_pub := ek_pub v_exchange_key; ek_pri := None |}; xs_items := [Some v_exchange] |}.
Definition v_header_key : cipher_key := Eval vm_compute in oval v_key (gen_header_key toy AES256_GCM v_sender).
Definition v_header : cipher_result := Eval vm_compute in val no_text (exchange_set_encrypt toy (Some v_set) (Some v_header_key) 1).
Definition v_sealed : cipher_result := Eval vm_compute in val no_text (payload_encrypt toy (Some v_payload) (Some v_key) 2).
Definition v_packet : packet := Eval vm_compute in
  val {| pt_version := 0; pt_content := []; pt_signature := {| es_curve := P521; es_digest := SHA256; es_sig := [] |} |}
    (packet_create_with_components toy (Some v_header) (Some v_sealed) (Some (id_key (ch_node v_sender))) 4 3).
Definition v_wire : bytes := Eval vm_compute in oval [] (packet_serialize (Some v_packet)).
Definition v_parse : parse_result := Eval vm_compute in
  rval (parse_failure SIG_UNKNOWN ERROR_INVALID_INPUT)
    (parse_result_from_packet toy (gen_header_key toy) (Some v_packet) (Some (id_identifier (ch_node (nd_chain v_node)))) (Some v_sender)).
Definition v_received : ctx_packet := Eval vm_compute in {| cp_packet := v_packet; cp_sender := v_sender; cp_parse := v_parse |}.
Definition v_ctx : ctx := Eval vm_compute in
  {| cx_dev := {| di_dev_salt := repeat x01 16; di_system_salt := Some (repeat x02 32); di_msg_proto_id := nd_dev_id v_node; di_srv_comm_id := repeat x03 32 |};
     cx_chain := nd_chain v_node; cx_storage := {| sk_local := v_key; sk_remote := v_other |}; cx_header_key := v_header_key; cx_version := 4 |}.
Definition v_root : root_keys := {| rk_signature := v_exchange_key; rk_node := v_key; rk_remote := v_other |}.
Definition v_gen : gen_result := {| gr_ctx := v_ctx; gr_recovery_key := v_other; gr_root_keys := v_root |}.
Definition v_pass : bytes := [x70; x61; x73; x73].
Definition v_recovery_key : bytes := Eval vm_compute in val [] (export_recovery_key_passphrase toy (Some v_gen) (Some v_pass) 4).
Definition v_storage : bytes := Eval vm_compute in val [] (ctx_export_storage_keys toy (Some v_ctx) (Some v_pass) 5).
Definition v_recovery : bytes := Eval vm_compute in val [] (make_recovery toy (Some v_gen) 6).
Definition v_stored : cipher_result := Eval vm_compute in val no_text (ctx_cipher_local toy (Some v_ctx) (Some [x61; x62; x63]) 7).
Definition v_shared : cipher_result := Eval vm_compute in val no_text (ctx_cipher_remote toy (Some v_ctx) (Some [x61; x62; x63]) 8).
(* and in memory *)
Definition h_sender : hch := Eval vm_compute in at_ 100 (pl_ch v_sender).
Definition h_node : hnd := Eval vm_compute in at_ 150 (pl_nd v_node).
Definition h_exchange_key : hkey := Eval vm_compute in at_ 200 (pl_key v_exchange_key).
Definition h_packet_key : hck := Eval vm_compute in at_ 210 (pl_ck v_key).
Definition h_psk : hbuf := Eval vm_compute in at_ 215 (pl_buf (repeat x77 16)).
Definition h_data : hbuf := Eval vm_compute in at_ 217 (pl_buf [x61; x62; x63]).
Definition h_exchange : hkx := Eval vm_compute in at_ 220 (pl_kx v_exchange).
Definition h_set : hxs := Eval vm_compute in at_ 240 (pl_xs v_set).
Definition h_header_key : hck := Eval vm_compute in at_ 260 (pl_ck v_header_key).
Definition h_header : hcr := Eval vm_compute in at_ 265 (pl_cr v_header).
Definition h_payload : hpy := Eval vm_compute in at_ 275 (pl_py v_payload).
Definition h_sealed : hcr := Eval vm_compute in at_ 285 (pl_cr v_sealed).
Definition h_signing_key : hkey := Eval vm_compute in at_ 295 (pl_key (id_key (ch_node v_sender))).
Definition h_packet : hpt := Eval vm_compute in at_ 305 (pl_pt v_packet).
Definition h_wire : hbuf := Eval vm_compute in at_ 315 (pl_buf v_wire).
Definition h_node_id : hbuf := Eval vm_compute in at_ 320 (pl_buf (id_identifier (ch_node (nd_chain v_node)))).
Definition h_parse : hpa := Eval vm_compute in at_ 325 (pl_pa v_parse).
Definition h_received : hcp := Eval vm_compute in at_ 400 (pl_cp v_received).
Definition h_private : hkey := Eval vm_compute in at_ 500 (pl_key v_private).
Definition h_public : hkey := Eval vm_compute in at_ 510 (pl_key (xs_sender v_set)).
Definition h_ctx : hcx := Eval vm_compute in at_ 520 (pl_cx v_ctx).
Definition h_gen : hgr := Eval vm_compute in at_ 600 (pl_gr v_gen).
Definition h_root : hrk := Eval vm_compute in at_ 700 (pl_rk v_root).
Definition h_pass : hbuf := Eval vm_compute in at_ 720 (pl_buf v_pass).
Definition h_recovery_key : hbuf := Eval vm_compute in at_ 722 (pl_buf v_recovery_key).
Definition h_storage : hbuf := Eval vm_compute in at_ 724 (pl_buf v_storage).
Definition h_recovery : hbuf := Eval vm_compute in at_ 726 (pl_buf v_recovery).
Definition h_other_key : hck := Eval vm_compute in at_ 728 (pl_ck v_other).
Definition h_stored : hcr := Eval vm_compute in at_ 732 (pl_cr v_stored).
Definition h_shared : hcr := Eval vm_compute in at_ 740 (pl_cr v_shared).
Definition h_agreement : hex := Eval vm_compute in {| hex_addr := 750; hex_local := at_ 751 (pl_key v_exchange_key); hex_cipher := AES256_GCM |}.
Definition h_params : hkm := Eval vm_compute in
  {| hkm_addr := 760; hkm_algo := KDF_HKDF_SHA256; hkm_salt := Some (at_ 761 (pl_buf (repeat x66 32))); hkm_info := Some (at_ 763 (pl_buf [x69; x6e; x66; x6f])) |}.
Definition h_agreed_text : hcr := Eval vm_compute in
  at_ 770 (pl_cr (val no_text (ecdh_cipher toy (ex_value h_agreement) (Some [x61; x62; x63]) (Some (key_value h_private)) (Some (km_value h_params)) 9))).
(* the packet was read and the recipient's exchange found; it was decoded *)
Definition found (t : hpa) : bool := match hpa_err t, hpa_status t, hpa_exchange t with E_SUCCESS, SIG_VALID, Some _ => true | _, _, _ => false end.
Definition decoded (t : hde) : bool := match hde_err t, hde_payload t with E_SUCCESS, Some p => beqb (b_bytes (hpy_body p)) (py_body v_payload) | _, _ => false end.
(* the secrets that are left *)
Definition v_agreed : bytes := Eval vm_compute in
  match ecdh_gen_cipher_key toy (ex_value h_agreement) (Some (key_value h_private)) (Some (km_value h_params)) with Val k => ck_data k | _ => [] end.
Definition key_bytes (k : cipher_key) : bytes := oval [] (cipher_key_serialize (Some k)).
Definition private_bytes (k : ec_key) : bytes := oval [] (ek_pri k).
(* a packet whose signature is by SHA-256 *)
Definition v_odd : packet := Eval vm_compute in
  {| pt_version := pt_version v_packet; pt_content := pt_content v_packet;
     pt_signature := {| es_curve := P521; es_digest := SHA256; es_sig := es_sig (pt_signature v_packet) |} |}.
Definition h_odd : hbuf := Eval vm_compute in at_ 315 (pl_buf (oval [] (packet_serialize (Some v_odd)))).
(* the conditions *)
Lemma made_params : if_set made_kdf_meta (option_map km_value (Some h_params)).
Proof. change (if_set made_kdf_meta (Some (km_value h_params))). closed. Qed.
Lemma made_exchange_key : if_set made_ec_key (option_map key_value (Some h_exchange_key)).
Proof. change (if_set made_ec_key (Some (key_value h_exchange_key))). closed. Qed.
Lemma made_private : if_set made_ec_key (option_map key_value (Some h_private)).
Proof. change (if_set made_ec_key (Some (key_value h_private))). closed. Qed.
Lemma made_receiver : receiver_made (option_map nd_value (Some h_node)).
Proof.
  intros x kp E K. apply Some_same in E. subst x. cbn in K. apply Some_same in K. subst kp. closed.
Qed.
Lemma made_set : if_set (fun s => Forall (if_set made_key_exchange) (xs_items s)) (option_map xs_value (Some h_set)).
Proof. intros x E. apply Some_same in E. subst x. cbn. closed. Qed.
Lemma made_sender : if_set made_chain (option_map ch_value (Some h_sender)).
Proof. change (if_set made_chain (Some (ch_value h_sender))). closed. Qed.
Lemma even_wire : forall x, Some h_wire = Some x -> ~ odd_signature (b_bytes x).
Proof.
  intros x E. apply Some_same in E. subst x. intros (s & E & D).
  assert (G : match ecdsa_result_create_from_buffer (Some (skipn (length (b_bytes h_wire) - N.to_nat (signature_size P521)) (b_bytes h_wire))) with
              | Val r => es_digest r = SHA512 | _ => True end) by (vm_compute; reflexivity).
  rewrite E in G. exact (D G).
Qed.
Lemma signing_condition : forall x q, Some h_signing_key = Some x -> hkey_pri x = Some q -> p_d2i toy (b_bytes q) <> None.
Proof.
  intros x q E1 E2. apply Some_same in E1. subst x. assert (G : match hkey_pri h_signing_key with Some r => p_d2i toy (b_bytes r) <> None | None => True end) by (vm_compute; discriminate).
  rewrite E2 in G. exact G.
Qed.
Lemma import_one (h : hbuf) (y : bytes) : y <> [] ->
  match kdf_meta_size_with_buffer (Some (b_bytes h)) with
  | Val size => match cipher_result_from_buffer (Some (skipn (N.to_nat size) (b_bytes h))) with Null => false | _ => true end
  | _ => false
  end = true ->
  ~ not_a_ciphertext toy (b_bytes h) y /\
  forall m, kdf_meta_create_with_buffer (Some (b_bytes h)) = Val m -> ~ empty_bcrypt (km_algo m) y.
Proof.
  intros N G. split.
  - intros (m & k & size & _ & _ & S & F). rewrite S, F in G. discriminate G.
  - intros m _ (_ & F). exact (N F).
Qed.
Lemma import_condition : forall x y, Some h_recovery_key = Some x \/ Some h_storage = Some x -> Some h_pass = Some y ->
  ~ not_a_ciphertext toy (b_bytes x) (b_bytes y) /\
  forall m, kdf_meta_create_with_buffer (Some (b_bytes x)) = Val m -> ~ empty_bcrypt (km_algo m) (b_bytes y).
Proof.
  intros x y E1 E2. apply Some_same in E2. subst y.
  destruct E1 as [E1|E1]; apply Some_same in E1; subst x; (apply import_one; [discriminate|vm_compute; reflexivity]).
Qed.
(* what goes wrong *)
Lemma C83_import_recovery_key_refuted_ok : op_leaves [buf_cells stray0; buf_cells aad0] never None derived0 (h_import_recovery_key_passphrase toy (Some stray0) (Some aad0) []).
Proof. apply op_leaves_none; vm_compute; reflexivity. Qed.
Lemma C83_import_storage_keys_refuted_ok : op_leaves [buf_cells stray0; buf_cells aad0] never None derived0 (h_ctx_import_storage_keys toy (Some stray0) (Some aad0) []).
Proof. apply op_leaves_none; vm_compute; reflexivity. Qed.
Lemma C83_packet_sign_refuted_ok : op_leaves [cr_cells h_header; cr_cells h_sealed; key_cells broken0] never None [] (h_packet_create_with_components toy (Some h_header) (Some h_sealed) (Some broken0) 4 3).
Proof. apply op_leaves_none; vm_compute; reflexivity. Qed.
Lemma C83_ctx_read_refuted_ok : op_leaves [buf_cells h_odd; buf_cells h_node_id; ch_cells h_sender] never None (es_sig (pt_signature v_odd)) (h_ctx_read_packet toy (Some h_odd) (Some h_node_id) (Some h_sender) []).
Proof. apply op_leaves_none; vm_compute; reflexivity. Qed.
Lemma C83_ctx_parse_refuted_ok : op_leaves [cx_cells h_ctx; buf_cells h_odd; ch_cells h_sender] never None (es_sig (pt_signature v_odd)) (h_ctx_parse_packet toy (Some h_ctx) (Some h_odd) (Some h_sender) []).
Proof. apply op_leaves_none; vm_compute; reflexivity. Qed.
Lemma C84_agreement_create_refuted_ok : op_crashes []
    (h_ecdh_ctx_create toy P521 AES256_GCM 0).
Proof. refine (op_crashes_by _ (fun _ ty => match ty with T_ec_key => true | _ => false end) _ _ _); vm_compute; reflexivity. Qed.
Lemma C84_agreement_key_refuted_ok : op_crashes [ex_cells h_agreement; key_cells h_private; km_cells h_params]
    (h_ecdh_gen_cipher_key toy h_agreement (Some h_private) (Some h_params)).
Proof. refine (op_crashes_by _ (fun _ ty => match ty with T_cipher_key => true | _ => false end) _ _ _); vm_compute; reflexivity. Qed.
Lemma C84_agreement_encrypt_refuted_ok : op_crashes [ex_cells h_agreement; buf_cells h_data; key_cells h_private; km_cells h_params]
    (h_ecdh_cipher toy h_agreement (Some h_data) (Some h_private) (Some h_params) 9).
Proof. refine (op_crashes_by _ (fun _ ty => match ty with T_cipher_result => true | _ => false end) _ _ _); vm_compute; reflexivity. Qed.
Lemma C84_agreement_decrypt_refuted_ok : op_crashes [ex_cells h_agreement; cr_cells h_agreed_text; key_cells h_private; km_cells h_params]
    (h_ecdh_decipher toy h_agreement (Some h_agreed_text) (Some h_private) (Some h_params) []).
Proof. refine (op_crashes_by _ (fun _ ty => match ty with T_cipher_key => true | _ => false end) _ _ _); vm_compute; reflexivity. Qed.
Lemma C84_exchange_data_refuted_ok : op_crashes [ch_cells h_sender; nd_cells h_node; key_cells h_exchange_key; buf_cells h_data; buf_cells h_psk]
    (h_exchange_create_with_data toy (Some h_sender) (Some h_node) (Some h_exchange_key) (Some h_data) AES256_GCM (Some h_psk) 4 0).
Proof. refine (op_crashes_by _ (fun _ ty => match ty with T_key_exchange => true | _ => false end) _ _ _); vm_compute; reflexivity. Qed.
Lemma C84_exchange_key_refuted_ok : op_crashes [ch_cells h_sender; nd_cells h_node; key_cells h_exchange_key; ck_cells h_packet_key; buf_cells h_psk]
    (h_exchange_create_with_packet_key toy (Some h_sender) (Some h_node) (Some h_exchange_key) (Some h_packet_key) (Some h_psk) 4 0).
Proof. refine (op_crashes_by _ (fun _ ty => match ty with T_key_exchange => true | _ => false end) _ _ _); vm_compute; reflexivity. Qed.
Lemma C84_derive_data_refuted_ok : op_crashes [ch_cells h_sender; nd_cells h_node; key_cells h_public; kx_cells h_exchange]
    (h_exchange_derive_data toy (Some h_sender) (Some h_node) (Some h_public) (Some h_exchange) None 4 []).
Proof. refine (op_crashes_by _ (fun _ ty => match ty with T_ec_key => true | _ => false end) _ _ _); vm_compute; reflexivity. Qed.
Lemma C84_derive_key_refuted_ok : op_crashes [ch_cells h_sender; nd_cells h_node; key_cells h_public; kx_cells h_exchange]
    (h_exchange_derive_packet_key toy (Some h_sender) (Some h_node) (Some h_public) (Some h_exchange) None 4 []).
Proof. refine (op_crashes_by _ (fun _ ty => match ty with T_cipher_key => true | _ => false end) _ _ _); vm_compute; reflexivity. Qed.
Lemma C84_header_encrypt_refuted_ok : op_crashes [xs_cells h_set; ck_cells h_header_key]
    (h_exchange_set_encrypt toy (Some h_set) (Some h_header_key) 1).
Proof. refine (op_crashes_by _ (fun _ ty => match ty with T_cipher_result => true | _ => false end) _ _ _); vm_compute; reflexivity. Qed.
Lemma C84_header_decrypt_refuted_ok : op_crashes [cr_cells h_header; ck_cells h_header_key]
    (h_exchange_set_create_from_cipher toy (Some h_header) (Some h_header_key) []).
Proof. refine (op_crashes_by _ (fun _ ty => match ty with T_key_exchange => true | _ => false end) _ _ _); vm_compute; reflexivity. Qed.
Lemma C84_exchange_find_refuted_ok : op_crashes [xs_cells h_set; buf_cells h_node_id]
    (h_exchange_set_find (Some h_set) (Some h_node_id)).
Proof. refine (op_crashes_by _ (fun _ ty => match ty with T_key_exchange => true | _ => false end) _ _ _); vm_compute; reflexivity. Qed.
Lemma C84_payload_encrypt_refuted_ok : op_crashes [py_cells h_payload; ck_cells h_packet_key]
    (h_payload_encrypt toy (Some h_payload) (Some h_packet_key) 2).
Proof. refine (op_crashes_by _ (fun _ ty => match ty with T_cipher_result => true | _ => false end) _ _ _); vm_compute; reflexivity. Qed.
Lemma C84_payload_decrypt_refuted_ok : op_crashes [cr_cells h_sealed; ck_cells h_packet_key]
    (h_payload_create_from_cipher toy (Some h_sealed) (Some h_packet_key) []).
Proof. refine (op_crashes_by _ (fun _ ty => match ty with T_packet_meta => true | _ => false end) _ _ _); vm_compute; reflexivity. Qed.
Lemma C84_packet_sign_refuted_ok : op_crashes [cr_cells h_header; cr_cells h_sealed; key_cells h_signing_key]
    (h_packet_create_with_components toy (Some h_header) (Some h_sealed) (Some h_signing_key) 4 3).
Proof. refine (op_crashes_by _ (fun _ ty => match ty with T_ecdsa_result => true | _ => false end) _ _ _); vm_compute; reflexivity. Qed.
Lemma C84_packet_read_refuted_ok : op_crashes [pt_cells h_packet; buf_cells h_node_id; ch_cells h_sender]
    (h_parse_result_from_packet toy (Some h_packet) (Some h_node_id) (Some h_sender) []).
Proof. refine (op_crashes_by _ (fun _ ty => match ty with T_openssl => true | _ => false end) _ _ _); vm_compute; reflexivity. Qed.
Lemma C84_ctx_read_refuted_ok : op_crashes [buf_cells h_wire; buf_cells h_node_id; ch_cells h_sender]
    (h_ctx_read_packet toy (Some h_wire) (Some h_node_id) (Some h_sender) []).
Proof. refine (op_crashes_by _ (fun _ ty => match ty with T_ecdsa_result => true | _ => false end) _ _ _); vm_compute; reflexivity. Qed.
Lemma C84_ctx_parse_refuted_ok : op_crashes [cx_cells h_ctx; buf_cells h_wire; ch_cells h_sender]
    (h_ctx_parse_packet toy (Some h_ctx) (Some h_wire) (Some h_sender) []).
Proof. refine (op_crashes_by _ (fun _ ty => match ty with T_ecdsa_result => true | _ => false end) _ _ _); vm_compute; reflexivity. Qed.
Lemma C84_ctx_parse_no_decode_refuted_ok : op_crashes [cx_cells h_ctx; buf_cells h_wire; ch_cells h_sender]
    (h_ctx_parse_packet_no_decode toy (Some h_ctx) (Some h_wire) (Some h_sender) []).
Proof. refine (op_crashes_by _ (fun _ ty => match ty with T_ecdsa_result => true | _ => false end) _ _ _); vm_compute; reflexivity. Qed.
Lemma C84_packet_decode_refuted_ok : op_crashes [pt_cells h_packet; pa_cells h_parse; buf_cells (hnd_dev_id h_node); key_cells h_private; ch_cells (hnd_chain h_node); ch_cells h_sender]
    (h_decode_result_from_parse_result toy h_packet (Some h_parse) (hnd_dev_id h_node) (Some h_private) (hnd_chain h_node) (Some h_sender) [] []).
Proof. refine (op_crashes_by _ (fun _ ty => match ty with T_ec_key => true | _ => false end) _ _ _); vm_compute; reflexivity. Qed.
Lemma C84_ctx_decode_refuted_ok : op_crashes [cx_cells h_ctx; cp_cells h_received; key_cells h_private]
    (h_ctx_decode_packet toy (Some h_ctx) (Some h_received) (Some h_private) [] []).
Proof. refine (op_crashes_by _ (fun _ ty => match ty with T_packet_meta => true | _ => false end) _ _ _); vm_compute; reflexivity. Qed.
Lemma C84_cipher_local_refuted_ok : op_crashes [cx_cells h_ctx; buf_cells h_data]
    (h_ctx_cipher_local toy (Some h_ctx) (Some h_data) 7).
Proof. refine (op_crashes_by _ (fun _ ty => match ty with T_buffer => true | _ => false end) _ _ _); vm_compute; reflexivity. Qed.
Lemma C84_cipher_remote_refuted_ok : op_crashes [cx_cells h_ctx; buf_cells h_data]
    (h_ctx_cipher_remote toy (Some h_ctx) (Some h_data) 8).
Proof. refine (op_crashes_by _ (fun _ ty => match ty with T_buffer => true | _ => false end) _ _ _); vm_compute; reflexivity. Qed.
Lemma C84_export_recovery_key_refuted_ok : op_crashes [gr_cells h_gen; buf_cells h_pass]
    (h_export_recovery_key_passphrase toy (Some h_gen) (Some h_pass) 4).
Proof. refine (op_crashes_by _ (fun _ ty => match ty with T_cipher_result => true | _ => false end) _ _ _); vm_compute; reflexivity. Qed.
Lemma C84_import_recovery_key_refuted_ok : op_crashes [buf_cells h_recovery_key; buf_cells h_pass]
    (h_import_recovery_key_passphrase toy (Some h_recovery_key) (Some h_pass) []).
Proof. refine (op_crashes_by _ (fun _ ty => match ty with T_cipher_key => true | _ => false end) _ _ _); vm_compute; reflexivity. Qed.
Lemma C84_export_storage_keys_refuted_ok : op_crashes [cx_cells h_ctx; buf_cells h_pass]
    (h_ctx_export_storage_keys toy (Some h_ctx) (Some h_pass) 5).
Proof. refine (op_crashes_by _ (fun _ ty => match ty with T_proto => true | _ => false end) _ _ _); vm_compute; reflexivity. Qed.
Lemma C84_import_storage_keys_refuted_ok : op_crashes [buf_cells h_storage; buf_cells h_pass]
    (h_ctx_import_storage_keys toy (Some h_storage) (Some h_pass) []).
Proof. refine (op_crashes_by _ (fun _ ty => match ty with T_cipher_key => true | _ => false end) _ _ _); vm_compute; reflexivity. Qed.
Lemma C84_export_root_keys_refuted_ok : op_crashes [rk_cells h_root; ck_cells h_other_key]
    (h_root_keys_export toy (Some h_root) (Some h_other_key) 6).
Proof. refine (op_crashes_by _ (fun _ ty => match ty with T_cipher_result => true | _ => false end) _ _ _); vm_compute; reflexivity. Qed.
Lemma C84_make_recovery_refuted_ok : op_crashes [gr_cells h_gen]
    (h_make_recovery toy (Some h_gen) 6).
Proof. refine (op_crashes_by _ (fun _ ty => match ty with T_cipher_result => true | _ => false end) _ _ _); vm_compute; reflexivity. Qed.
Lemma C84_import_recovery_refuted_ok : op_crashes [buf_cells h_recovery; ck_cells h_other_key]
    (h_ctx_gen_import_recovery toy (Some h_recovery) (Some h_other_key) []).
Proof. refine (op_crashes_by _ (fun _ ty => match ty with T_cipher_key => true | _ => false end) _ _ _); vm_compute; reflexivity. Qed.
Lemma C84_agreement_key_leaks_refuted_ok : exists fails, op_leaves [ex_cells h_agreement; key_cells h_private; km_cells h_params] fails None v_agreed
    (h_ecdh_gen_cipher_key toy h_agreement (Some h_private) (Some h_params)).
Proof. exists (only 780). apply op_leaves_none; vm_compute; reflexivity. Qed.
Lemma C84_exchange_data_leaks_refuted_ok : exists fails, op_leaves [ch_cells h_sender; nd_cells h_node; key_cells h_exchange_key; buf_cells h_data; buf_cells h_psk] fails None (b_bytes h_psk)
    (h_exchange_create_with_data toy (Some h_sender) (Some h_node) (Some h_exchange_key) (Some h_data) AES256_GCM (Some h_psk) 4 0).
Proof. exists (only 244). apply op_leaves_none; vm_compute; reflexivity. Qed.
Lemma C84_derive_data_leaks_refuted_ok : exists fails, op_leaves [ch_cells h_sender; nd_cells h_node; key_cells h_public; kx_cells h_exchange; buf_cells h_psk] fails None (b_bytes h_psk)
    (h_exchange_derive_data toy (Some h_sender) (Some h_node) (Some h_public) (Some h_exchange) (Some h_psk) 4 []).
Proof. exists (only 538). apply op_leaves_none; vm_compute; reflexivity. Qed.
Lemma C85_agreement_key_refuted_ok : exists fails, op_exposes [ex_cells h_agreement; key_cells h_private; km_cells h_params] fails v_agreed
    (h_ecdh_gen_cipher_key toy h_agreement (Some h_private) (Some h_params)).
Proof. exists (only 775). apply op_exposes_by; vm_compute; reflexivity. Qed.
Lemma C85_agreement_encrypt_refuted_ok : exists fails, op_exposes [ex_cells h_agreement; buf_cells h_data; key_cells h_private; km_cells h_params] fails v_agreed
    (h_ecdh_cipher toy h_agreement (Some h_data) (Some h_private) (Some h_params) 9).
Proof. exists (only 775). apply op_exposes_by; vm_compute; reflexivity. Qed.
Lemma C85_agreement_decrypt_refuted_ok : exists fails, op_exposes [ex_cells h_agreement; cr_cells h_agreed_text; key_cells h_private; km_cells h_params] fails v_agreed
    (h_ecdh_decipher toy h_agreement (Some h_agreed_text) (Some h_private) (Some h_params) []).
Proof. exists (only 787). apply op_exposes_by; vm_compute; reflexivity. Qed.
Lemma C85_exchange_data_refuted_ok : exists fails, op_exposes [ch_cells h_sender; nd_cells h_node; key_cells h_exchange_key; buf_cells h_data; buf_cells h_psk] fails (b_bytes h_psk)
    (h_exchange_create_with_data toy (Some h_sender) (Some h_node) (Some h_exchange_key) (Some h_data) AES256_GCM (Some h_psk) 4 0).
Proof. exists (only 229). apply op_exposes_by; vm_compute; reflexivity. Qed.
Lemma C85_exchange_key_refuted_ok : exists fails, op_exposes [ch_cells h_sender; nd_cells h_node; key_cells h_exchange_key; ck_cells h_packet_key; buf_cells h_psk] fails (b_bytes h_psk)
    (h_exchange_create_with_packet_key toy (Some h_sender) (Some h_node) (Some h_exchange_key) (Some h_packet_key) (Some h_psk) 4 0).
Proof. exists (only 229). apply op_exposes_by; vm_compute; reflexivity. Qed.
Lemma C85_derive_data_refuted_ok : exists fails, op_exposes [ch_cells h_sender; nd_cells h_node; key_cells h_public; kx_cells h_exchange; buf_cells h_psk] fails (b_bytes h_psk)
    (h_exchange_derive_data toy (Some h_sender) (Some h_node) (Some h_public) (Some h_exchange) (Some h_psk) 4 []).
Proof. exists (only 523). apply op_exposes_by; vm_compute; reflexivity. Qed.
Lemma C85_derive_key_refuted_ok : exists fails, op_exposes [ch_cells h_sender; nd_cells h_node; key_cells h_public; kx_cells h_exchange; buf_cells h_psk] fails (b_bytes h_psk)
    (h_exchange_derive_packet_key toy (Some h_sender) (Some h_node) (Some h_public) (Some h_exchange) (Some h_psk) 4 []).
Proof. exists (only 523). apply op_exposes_by; vm_compute; reflexivity. Qed.
Lemma C85_payload_decrypt_refuted_ok : op_exposes [cr_cells h_sealed; ck_cells h_packet_key] never (py_body v_payload)
    (h_payload_create_from_cipher toy (Some h_sealed) (Some h_packet_key) []).
Proof. apply op_exposes_by; vm_compute; reflexivity. Qed.
Lemma C85_packet_decode_refuted_ok : op_exposes [pt_cells h_packet; pa_cells h_parse; buf_cells (hnd_dev_id h_node); key_cells h_private; ch_cells (hnd_chain h_node); ch_cells h_sender] never (py_body v_payload)
    (h_decode_result_from_parse_result toy h_packet (Some h_parse) (hnd_dev_id h_node) (Some h_private) (hnd_chain h_node) (Some h_sender) [] []).
Proof. apply op_exposes_by; vm_compute; reflexivity. Qed.
Lemma C85_ctx_decode_refuted_ok : op_exposes [cx_cells h_ctx; cp_cells h_received; key_cells h_private] never (py_body v_payload)
    (h_ctx_decode_packet toy (Some h_ctx) (Some h_received) (Some h_private) [] []).
Proof. apply op_exposes_by; vm_compute; reflexivity. Qed.
Lemma C85_export_storage_keys_refuted_ok : op_exposes [cx_cells h_ctx; buf_cells h_pass] never (key_bytes v_key)
    (h_ctx_export_storage_keys toy (Some h_ctx) (Some h_pass) 5).
Proof. apply op_exposes_by; vm_compute; reflexivity. Qed.
Lemma C85_import_storage_keys_refuted_ok : op_exposes [buf_cells h_storage; buf_cells h_pass] never (key_bytes v_key)
    (h_ctx_import_storage_keys toy (Some h_storage) (Some h_pass) []).
Proof. apply op_exposes_by; vm_compute; reflexivity. Qed.
Lemma C85_import_recovery_refuted_ok : op_exposes [buf_cells h_recovery; ck_cells h_other_key] never (key_bytes v_key)
    (h_ctx_gen_import_recovery toy (Some h_recovery) (Some h_other_key) []).
Proof. apply op_exposes_by; vm_compute; reflexivity. Qed.
Lemma C85_import_recovery_private_refuted_ok : op_exposes [buf_cells h_recovery; ck_cells h_other_key] never (private_bytes v_exchange_key)
    (h_ctx_gen_import_recovery toy (Some h_recovery) (Some h_other_key) []).
Proof. apply op_exposes_by; vm_compute; reflexivity. Qed.
