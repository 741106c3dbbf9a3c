(* Concrete bytes to read objects from, for the theorems of Props/PropsHeapParse.v. *)
From Verif.Base Require Import Bytes Monad.
From Verif.Model Require Import Buffer Cipher Ecdsa Kdf Prims Engine Identity Node Stream TransportPacket Keys Payload Exchange Packet Heap HeapObjects HeapMessages HeapParse.
From Verif.Spec Require Import HeapSpec HeapObjectSpec HeapParseSpec.
From Verif.Proofs Require Import ToyPrims ToyObjects HeapExamples BytesFacts.
Local Open Scope N_scope.

Definition given (bs : bytes) : hbuf := {| b_addr := 0%nat; b_data := 1%nat; b_bytes := bs |}.
Definition memory_with (bs : bytes) : heap := heap_of (buf_cells (given bs)).
Lemma given_in_memory bs : heap_ok (memory_with bs) /\ in_memory (memory_with bs) (buf_cells (given bs)).
Proof. split; [apply heap_of_ok|]. apply heap_of_has. reflexivity. Qed.

(* bytes of an object in memory *)
Definition readable {V} (pure : option bytes -> res V) : Prop :=
  exists h b v, heap_ok h /\ in_memory h (buf_cells b) /\ pure (Some (b_bytes b)) = Val v.
Lemma readable_by {V} (pure : option bytes -> res V) bs : match pure (Some bs) with Val _ => true | _ => false end = true -> readable pure.
Proof.
  intros E. destruct (pure (Some bs)) as [v| |] eqn:V1; try discriminate E. destruct (given_in_memory bs) as (A & B).
  exists (memory_with bs), (given bs), v. auto.
Qed.
Lemma crash_by {T} (parse : option hbuf -> H (option T)) fails bs :
  match parse (Some (given bs)) fails (memory_with bs) with None => true | Some _ => false end = true -> parse_crashes parse.
Proof.
  intros E. destruct (given_in_memory bs) as (A & B). exists fails, (memory_with bs), (given bs). split; [exact A|]. split; [exact B|].
  destruct (parse _ _ _); [discriminate E|reflexivity].
Qed.
Definition stays (h h' : heap) (x : block) : bool := match mem h x, mem h' x with None, Some _ => true | _, _ => false end.
Lemma leak_by {T} (parse : option hbuf -> H (option T)) fails bs :
  match parse (Some (given bs)) fails (memory_with bs) with
  | Some (None, h') => existsb (stays (memory_with bs) h') (seq 0 (next h'))
  | _ => false
  end = true -> parse_leaks parse fails.
Proof.
  intros E. destruct (given_in_memory bs) as (A & B).
  destruct (parse (Some (given bs)) fails (memory_with bs)) as [[[t|] h']|] eqn:R; try discriminate E.
  exists (memory_with bs), (given bs), h'. split; [exact A|]. split; [exact B|]. split; [exact R|].
  apply existsb_exists in E. destruct E as (x & _ & E). exists x. unfold stays in E.
  destruct (mem (memory_with bs) x); [discriminate E|]. split; [reflexivity|]. destruct (mem h' x); [discriminate|discriminate E].
Qed.
Definition has_block (l : list cell) (s : bytes) : option block := option_map fst (find (fun c => beqb (snd c) s) l).
Lemma has_block_in l s x : has_block l s = Some x -> In (x, s) l.
Proof.
  unfold has_block. destruct (find (fun c => beqb (snd c) s) l) as [[y c]|] eqn:F; [|discriminate]. intros E. injection E as <-.
  apply find_some in F. destruct F as (I & E). cbn in E. apply beqb_spec in E. subst c. exact I.
Qed.
Lemma exposed_by {T} (parse : option hbuf -> H (option T)) secret_of bs :
  match parse (Some (given bs)) never (memory_with bs), secret_of bs with
  | Some (Some _, h'), Some s => match has_block (freed h') s with Some _ => true | None => false end
  | _, _ => false
  end = true -> parse_exposes parse secret_of.
Proof.
  intros E. destruct (given_in_memory bs) as (A & B).
  destruct (parse (Some (given bs)) never (memory_with bs)) as [[[t|] h']|] eqn:R; try discriminate E.
  destruct (secret_of bs) as [s|] eqn:S; [|discriminate E]. destruct (has_block (freed h') s) as [x|] eqn:X; [|discriminate E].
  exists (memory_with bs), (given bs), t, h', s, x. split; [exact A|]. split; [exact B|]. split; [exact R|]. split; [exact S|].
  split; [exact (has_block_in _ _ _ X)|]. intros [].
Qed.

Definition ex_ck : cipher_key := {| ck_cipher := AES256_GCM; ck_data := repeat x04 32 |}.
Definition ex_cr : cipher_result := {| cr_cipher := AES256_GCM; cr_iv := repeat x05 12; cr_text := Some (repeat x06 20); cr_tag := Some (repeat x07 16) |}.
Definition ex_sig (d : digest) : ecdsa_result := {| es_curve := P521; es_digest := d; es_sig := repeat x03 100 |}.
Definition b_ck : bytes := Eval vm_compute in oval [] (cipher_key_serialize (Some ex_ck)).
Definition b_cr : bytes := Eval vm_compute in oval [] (cipher_result_serialize (Some ex_cr)).
Definition b_sig : bytes := Eval vm_compute in oval [] (ecdsa_result_serialize (Some (ex_sig SHA512))).
Definition b_km : bytes := Eval vm_compute in oval [] (kdf_meta_serialize (Some {| km_algo := KDF_SCRYPT_2_17; km_salt := Some (repeat x08 16); km_info := None |})).
Definition b_pub : bytes := Eval vm_compute in ek_pub (toy_key 1).
Definition b_pri : bytes := Eval vm_compute in oval [] (ek_pri (toy_key 1)).
Definition b_id : bytes := Eval vm_compute in oval [] (identity_serialize (Some (toy_node_id 1))).
Definition b_ch : bytes := Eval vm_compute in oval [] (chain_serialize_private (Some (toy_chain 1))).
Definition b_kp : bytes := Eval vm_compute in oval [] (keypair_serialize (Some (toy_keypair 1 7))).
Definition b_nd : bytes := Eval vm_compute in oval [] (node_serialize (Some (toy_node 1))).
Definition b_rk : bytes := Eval vm_compute in rval [] (root_keys_serialize (Some {| rk_signature := toy_key 1; rk_node := ex_ck; rk_remote := ex_ck |})).
Definition b_sk : bytes := Eval vm_compute in rval [] (storage_keys_serialize (Some {| sk_local := ex_ck; sk_remote := ex_ck |})).
Definition ex_st (ppe : N) : stream_key := {| sk_cipher := ex_ck; sk_evo := repeat x17 64; sk_ppe := ppe; sk_user := Some (repeat x18 5) |}.
Definition b_st : bytes := Eval vm_compute in rval [] (stream_key_serialize (Some (ex_st 512))).
Definition b_st_odd : bytes := Eval vm_compute in rval [] (stream_key_serialize (Some (ex_st 0))).
Definition b_py : bytes := Eval vm_compute in
  oval [] (payload_serialize (Some {| py_meta := {| me_ttl := 60; me_bor := 0; me_tag := repeat x0f 32; me_type := 1000 |}; py_body := repeat x10 30 |})).
Definition ex_kx : key_exchange := {| kx_id := repeat x11 32; kx_key_id := 3; kx_text := ex_cr |}.
Definition b_xs : bytes := Eval vm_compute in
  oval [] (exchange_set_serialize (Some {| xs_sender := {| ek_curve := P521; ek_pub := ek_pub (toy_key 1); ek_pri := None |}; xs_items := [Some ex_kx; Some ex_kx] |})).
Definition b_pt (d : digest) : bytes := oval [] (packet_serialize (Some {| pt_version := 4; pt_content := repeat x12 50; pt_signature := ex_sig d |})).
Definition b_tp : bytes := Eval vm_compute in oval [] (tpacket_serialize {| tp_network := None; tp_body := repeat x1c 20; tp_mac := Some b_sig; tp_meta := meta_data 3 MAC_EC_P521 |}).
(* what goes wrong *)
Lemma cipher_key_parse_crashes : parse_crashes (with_input h_cipher_key_from_bytes).
Proof. refine (crash_by _ (fun _ ty => match ty with T_cipher_key => true | _ => false end) b_ck _). vm_compute. reflexivity. Qed.
Lemma cipher_result_parse_crashes : parse_crashes (with_input h_cipher_result_from_bytes).
Proof. refine (crash_by _ (fun _ ty => match ty with T_cipher_result => true | _ => false end) b_cr _). vm_compute. reflexivity. Qed.
Lemma ecdsa_result_parse_crashes : parse_crashes (with_input h_ecdsa_result_from_bytes).
Proof. refine (crash_by _ (fun _ ty => match ty with T_ecdsa_result => true | _ => false end) b_sig _). vm_compute. reflexivity. Qed.
Lemma public_key_parse_crashes : parse_crashes (with_input (h_ec_key_import toy false)).
Proof. refine (crash_by _ (fun _ ty => match ty with T_ec_key => true | _ => false end) b_pub _). vm_compute. reflexivity. Qed.
Lemma exchange_set_parse_crashes : parse_crashes (with_input (h_exchange_set_from_bytes toy)).
Proof. refine (crash_by _ (fun _ ty => match ty with T_key_exchange => true | _ => false end) b_xs _). vm_compute. reflexivity. Qed.
Lemma payload_parse_crashes : parse_crashes (with_input h_payload_from_bytes).
Proof. refine (crash_by _ (fun _ ty => match ty with T_packet_meta => true | _ => false end) b_py _). vm_compute. reflexivity. Qed.
Lemma packet_parse_crashes : parse_crashes (with_input h_packet_from_bytes).
Proof. refine (crash_by _ (fun _ ty => match ty with T_ecdsa_result => true | _ => false end) (b_pt SHA512) _). vm_compute. reflexivity. Qed.
Lemma packet_parse_leaks : parse_leaks (with_input h_packet_from_bytes) never.
Proof. refine (leak_by _ _ (b_pt SHA256) _). vm_compute. reflexivity. Qed.
Lemma stream_key_parse_leaks : parse_leaks (with_input h_stream_key_from_bytes) never.
Proof. refine (leak_by _ _ b_st_odd _). vm_compute. reflexivity. Qed.
Lemma kdf_meta_parse_leaks : parse_leaks (with_input h_kdf_meta_from_bytes) (fun _ ty => match ty with T_kdf_meta => true | _ => false end).
Proof. refine (leak_by _ _ b_km _). vm_compute. reflexivity. Qed.
Lemma private_key_parse_leaks : parse_leaks (with_input (h_ec_key_import toy true)) (only 3).
Proof. refine (leak_by _ _ b_pri _). vm_compute. reflexivity. Qed.
Lemma root_keys_exposed : parse_exposes (with_input (h_root_keys_from_bytes toy))
    (fun b => match pb_root_keys_unpack b with Some m => pr_signature m | None => None end).
Proof. refine (exposed_by _ _ b_rk _). vm_compute. reflexivity. Qed.
Lemma storage_keys_exposed : parse_exposes (with_input h_storage_keys_from_bytes)
    (fun b => match pb_storage_keys_unpack b with Some m => ps_local m | None => None end).
Proof. refine (exposed_by _ _ b_sk _). vm_compute. reflexivity. Qed.
Lemma stream_key_exposed : parse_exposes (with_input h_stream_key_from_bytes)
    (fun b => match pb_stream_key_unpack b with Some m => pst_cipher_key m | None => None end).
Proof. refine (exposed_by _ _ b_st _). vm_compute. reflexivity. Qed.
Lemma payload_exposed : parse_exposes (with_input h_payload_from_bytes)
    (fun b => match pb_payload_unpack b with Some m => Some (pp_body m) | None => None end).
Proof. refine (exposed_by _ _ b_py _). vm_compute. reflexivity. Qed.
Lemma chain_exposed : parse_exposes (with_input (h_chain_from_bytes toy))
    (fun b => match pb_chain_unpack b with
       | Some {| pc_node := Some i |} => match pi_is_private i with Some true => pi_sig_key i | _ => None end
       | _ => None end).
Proof. refine (exposed_by _ _ b_ch _). vm_compute. reflexivity. Qed.
