(* Runs of handshakes and transport contexts over the toy primitives, for the examples. *)
From Verif.Base Require Import Bytes Monad.
From Verif.Model Require Import Buffer Cipher Ecdsa Prims Engine Identity Stream TransportPacket Handshake Transport.
From Verif.Spec Require Import BufferSpec CodecSpec EngineSpec IdentitySpec StreamSpec TransportSpec HandshakeSpec.
From Verif.Proofs Require Import BytesFacts IdentityFacts IdentityProps ToyPrims ToyObjects.
Local Open Scope N_scope.

(* --- running a list of calls *)
Fixpoint trun (P : prims) (c : transport) (ops : list (top * nat)) : res (list (top * list tevent) * transport) :=
  match ops with
  | [] => Val ([], c)
  | (o, s) :: ops' =>
      match fst (transport_step P c o s) with
      | Val (c', ev) => match trun P c' ops' with Val (h, c2) => Val ((o, ev) :: h, c2) | Null => Null | UB => UB end
      | Null => Null
      | UB => UB
      end
  end.
Lemma reach_cons P c o s c1 ev h c2 : fst (transport_step P c o s) = Val (c1, ev) -> reach P c1 h c2 -> reach P c ((o, ev) :: h) c2.
Proof.
  intros E R. induction R as [|h c' o' s' c'' ev' R IH S].
  - exact (reach_step P c [] c o s c1 ev (reach_nil P c) E).
  - exact (reach_step P c ((o, ev) :: h) c' o' s' c'' ev' IH S).
Qed.
Lemma trun_reach P : forall ops c h c', trun P c ops = Val (h, c') -> reach P c h c'.
Proof.
  induction ops as [|[o s] ops IH]; intros c h c' H; cbn [trun] in H.
  - injection H as <- <-. apply reach_nil.
  - destruct (fst (transport_step P c o s)) as [[c1 ev]| |] eqn:E; try discriminate.
    destruct (trun P c1 ops) as [[h1 c2]| |] eqn:E2; try discriminate. injection H as <- <-.
    exact (reach_cons _ _ _ _ _ _ _ _ E (IH _ _ _ E2)).
Qed.
Fixpoint hrun (P : prims) (h : handshake) (ops : list (hop * nat)) : res (list (hop * hout) * handshake) :=
  match ops with
  | [] => Val ([], h)
  | (o, s) :: ops' =>
      match hstep P h o s with
      | Val (h', out) => match hrun P h' ops' with Val (l, h2) => Val ((o, out) :: l, h2) | Null => Null | UB => UB end
      | Null => Null
      | UB => UB
      end
  end.
Lemma hreach_cons P h o s h1 out l h2 : hstep P h o s = Val (h1, out) -> hreach P h1 l h2 -> hreach P h ((o, out) :: l) h2.
Proof.
  intros E R. induction R as [|l h' o' s' h'' out' R IH S].
  - exact (hreach_step P h [] h o s h1 out (hreach_nil P h) E).
  - exact (hreach_step P h ((o, out) :: l) h' o' s' h'' out' IH S).
Qed.
Lemma hrun_reach P : forall ops h l h', hrun P h ops = Val (l, h') -> hreach P h l h'.
Proof.
  induction ops as [|[o s] ops IH]; intros h l h' H; cbn [hrun] in H.
  - injection H as <- <-. apply hreach_nil.
  - destruct (hstep P h o s) as [[h1 out]| |] eqn:E; try discriminate.
    destruct (hrun P h1 ops) as [[l1 h2]| |] eqn:E2; try discriminate. injection H as <- <-.
    exact (hreach_cons _ _ _ _ _ _ _ _ E (IH _ _ _ E2)).
Qed.
(* a network that only loses, repeats and reorders is no forger *)
Lemma faithful_no_forgery P sender receiver :
  (forall b answer pad ev, In (TReceive (Some b) answer pad, ev) receiver -> In b (transmitted sender)) -> no_forgery P sender receiver.
Proof. intros H b answer pad ev d aad r key I _ S _. exists b. split; [exact (H b answer pad ev I)|exact S]. Qed.
Definition faithfulb (sender receiver : list (top * list tevent)) : bool :=
  forallb (fun x => match x with (TReceive (Some b) _ _, _) => existsb (beqb b) (transmitted sender) | _ => true end) receiver.
Lemma faithfulb_ok P sender receiver : faithfulb sender receiver = true -> no_forgery P sender receiver.
Proof.
  intros H. apply faithful_no_forgery. intros b answer pad ev I. unfold faithfulb in H. rewrite forallb_forall in H. specialize (H _ I). cbn in H.
  apply existsb_exists in H. destruct H as (w & W & E). apply beqb_spec in E. subst w. exact W.
Qed.

(* --- two identities *)
Lemma toy_chain_good : good_chain toy (toy_chain 1) /\ good_chain toy (toy_chain 2).
Proof.
  assert (R : forall i, good_identity toy (toy_root i)).
  { intros i. split; [|split; [apply engine_key_importable; [exact toy_ec|exact toy_gen|apply toy_key_made]|reflexivity]].
    unfold toy_root, blen. cbn [id_identifier]. rewrite toy_digest_length. split; reflexivity. }
  assert (N1 : node_identity_gen toy (Some (toy_root 1)) (Some (toy_digest 32 [x01; n2b 1])) 101%nat = (Val (toy_node_id 1), 103%nat)) by (vm_compute; reflexivity).
  assert (N2 : node_identity_gen toy (Some (toy_root 2)) (Some (toy_digest 32 [x01; n2b 2])) 102%nat = (Val (toy_node_id 2), 104%nat)) by (vm_compute; reflexivity).
  split; (split; [apply R|]).
  - destruct (node_gen_ok toy (toy_root 1) _ _ _ _ toy_ec toy_gen toy_sign toy_rand (toy_key_made 1) N1) as (_ & _ & G & _). exact G.
  - destruct (node_gen_ok toy (toy_root 2) _ _ _ _ toy_ec toy_gen toy_sign toy_rand (toy_key_made 2) N2) as (_ & _ & G & _). exact G.
Qed.
Lemma toy_node_key : engine_key toy (id_key (ch_node (toy_chain 1))) /\ engine_key toy (id_key (ch_node (toy_chain 2))).
Proof.
  assert (N1 : node_identity_gen toy (Some (toy_root 1)) (Some (toy_digest 32 [x01; n2b 1])) 101%nat = (Val (toy_node_id 1), 103%nat)) by (vm_compute; reflexivity).
  assert (N2 : node_identity_gen toy (Some (toy_root 2)) (Some (toy_digest 32 [x01; n2b 2])) 102%nat = (Val (toy_node_id 2), 104%nat)) by (vm_compute; reflexivity).
  split.
  - destruct (node_gen_ok toy (toy_root 1) _ _ _ _ toy_ec toy_gen toy_sign toy_rand (toy_key_made 1) N1) as (_ & G & _). exact G.
  - destruct (node_gen_ok toy (toy_root 2) _ _ _ _ toy_ec toy_gen toy_sign toy_rand (toy_key_made 2) N2) as (_ & G & _). exact G.
Qed.

(* --- two contexts, neither of which knows the other, and one (tp) that knows the first *)
Definition ta0 : transport := {| tc_local := toy_chain 1; tc_remote := None; tc_tx := None; tc_rx := None; tc_handshake := None; tc_status := T_NONE; tc_evo := 3; tc_err := E_NONE |}.
Definition tb0 : transport := {| tc_local := toy_chain 2; tc_remote := None; tc_tx := None; tc_rx := None; tc_handshake := None; tc_status := T_NONE; tc_evo := 2; tc_err := E_NONE |}.
Definition tp0 : transport := {| tc_local := toy_chain 2; tc_remote := Some (public_chain (toy_chain 1)); tc_tx := None; tc_rx := None; tc_handshake := None; tc_status := T_NONE; tc_evo := 2; tc_err := E_NONE |}.
Lemma toy_contexts : transport_create (Some (toy_chain 1)) None 3 = Some ta0 /\ transport_create (Some (toy_chain 2)) None 2 = Some tb0 /\
  transport_create (Some (toy_chain 2)) (Some (public_chain (toy_chain 1))) 2 = Some tp0.
Proof. split; [|split]; reflexivity. Qed.
Definition tr (c : transport) (o : top) (s : nat) : transport * list tevent := val (ta0, []) (transport_step toy c o s).
Definition first_tx (ev : list tevent) : bytes := match flat_map is_tx ev with b :: _ => b | [] => [] end.
Definition ta1 := Eval vm_compute in tr ta0 TStart 1000%nat.
Definition tw1 : bytes := Eval vm_compute in first_tx (snd ta1).
Definition tb1 := Eval vm_compute in tr tb0 (TReceive (Some tw1) (Some true) 0) 2000%nat.
Definition tw2 : bytes := Eval vm_compute in first_tx (snd tb1).
(* the initiator's user answers later *)
Definition ta2 := Eval vm_compute in tr (fst ta1) (TReceive (Some tw2) None 0) 3000%nat.
Definition ta3 := Eval vm_compute in tr (fst ta2) (TAnswer true) 4000%nat.
Definition tp1 := Eval vm_compute in tr tp0 (TReceive (Some tw1) None 0) 2000%nat.
Lemma ta1_eq : fst (transport_step toy ta0 TStart 1000%nat) = Val ta1.
Proof. vm_compute. reflexivity. Qed.
Lemma tb1_eq : fst (transport_step toy tb0 (TReceive (Some tw1) (Some true) 0) 2000%nat) = Val tb1.
Proof. vm_compute. reflexivity. Qed.
Lemma ta2_eq : fst (transport_step toy (fst ta1) (TReceive (Some tw2) None 0) 3000%nat) = Val ta2.
Proof. vm_compute. reflexivity. Qed.
Lemma ta3_eq : fst (transport_step toy (fst ta2) (TAnswer true) 4000%nat) = Val ta3.
Proof. vm_compute. reflexivity. Qed.
Lemma tp1_eq : fst (transport_step toy tp0 (TReceive (Some tw1) None 0) 2000%nat) = Val tp1.
Proof. vm_compute. reflexivity. Qed.
Definition asks (ev : list tevent) : list chain := flat_map (fun e => match e with EvVerify c => [c] | _ => [] end) ev.
Lemma toy_connected : connected toy ta0 tb0 tw1 tw2 (fst ta3) (fst tb1).
Proof.
  exists 1000%nat, (fst ta1), (snd ta1), (snd tb1), (snd ta2 ++ snd ta3)%list.
  split; [rewrite ta1_eq; destruct ta1; reflexivity|]. split; [right; left; reflexivity|].
  split. { exists 0, 2000%nat. left. rewrite tb1_eq. destruct tb1; reflexivity. }
  split; [right; right; left; reflexivity|]. split; [reflexivity|]. split; [|reflexivity].
  exists 0, 3000%nat. right. exists 4000%nat, (fst ta2), (snd ta2), (match asks (snd ta2) with c :: _ => c | [] => toy_chain 0 end), (snd ta3).
  split; [rewrite ta2_eq; destruct ta2; reflexivity|]. split; [left; reflexivity|]. split; [rewrite ta3_eq; destruct ta3; reflexivity|reflexivity].
Qed.
(* three messages, of which the second is lost *)
Definition toy_sends : list (top * nat) := [(TSend (Some [x68; x69]), 1%nat); (TSend (Some [x79; x6f]), 2%nat); (TSend (Some [x7a]), 3%nat)].
Definition toy_ha := Eval vm_compute in rval ([], ta0) (trun toy (fst ta3) toy_sends).
Definition toy_recvs : list (top * nat) :=
  match transmitted (fst toy_ha) with
  | [a; b; c] => [(TReceive (Some a) None 0, 1%nat); (TReceive (Some c) None 0, 2%nat); (TReceive (Some b) None 0, 3%nat)]
  | _ => []
  end.
Definition toy_hb := Eval vm_compute in rval ([], ta0) (trun toy (fst tb1) toy_recvs).
Lemma toy_ha_eq : trun toy (fst ta3) toy_sends = Val toy_ha.
Proof. vm_compute. reflexivity. Qed.
Lemma toy_hb_eq : trun toy (fst tb1) toy_recvs = Val toy_hb.
Proof. vm_compute. reflexivity. Qed.

(* --- the same at the level of handshakes *)
Definition th0 : handshake := {| hs_status := H_UNKNOWN; hs_initiator := false; hs_local := toy_chain 1; hs_remote := None; hs_evo := 3;
  hs_packet0 := None; hs_packet1 := None; hs_ephemeral := None; hs_root := None; hs_pending := None |}.
Definition tg0 : handshake := {| hs_status := H_UNKNOWN; hs_initiator := false; hs_local := toy_chain 2; hs_remote := None; hs_evo := 2;
  hs_packet0 := None; hs_packet1 := None; hs_ephemeral := None; hs_root := None; hs_pending := None |}.
Lemma toy_handshakes : handshake_create (Some (toy_chain 1)) None 3 = Some th0 /\ handshake_create (Some (toy_chain 2)) None 2 = Some tg0.
Proof. split; reflexivity. Qed.
Definition no_packet : tpacket := {| tp_network := None; tp_body := []; tp_mac := None; tp_meta := meta_data 0 MAC_NONE |}.
Definition no_keys : handshake_res :=
  let k := {| sk_cipher := {| ck_cipher := AES256_GCM; ck_data := [] |}; sk_evo := []; sk_ppe := 0; sk_user := None |} in {| hr_local := k; hr_remote := k |}.
Definition parsed (b : bytes) : tpacket := rval no_packet (tpacket_create_from_buffer (Some b)).
Definition th1 := Eval vm_compute in val (th0, None) (handshake_start toy th0 1000%nat).
Definition hw1 : bytes := Eval vm_compute in oval [] (tpacket_serialize (oval no_packet (snd th1))).
Definition tg1 := Eval vm_compute in val (tg0, None, None) (handshake_process toy tg0 (Some (parsed hw1)) 2000%nat).
Definition tg2 := Eval vm_compute in settle (fst (fst tg1)) (snd (fst tg1)).
Definition hw2 : bytes := Eval vm_compute in oval [] (tpacket_serialize (oval no_packet (snd tg2))).
Definition th2 := Eval vm_compute in val (th0, None, None) (handshake_process toy (fst th1) (Some (parsed hw2)) 3000%nat).
Definition th3 := Eval vm_compute in settle (fst (fst th2)) (snd (fst th2)).
Definition th4 := Eval vm_compute in rval (th0, None) (handshake_finalize toy (fst th3)).
Definition tg3 := Eval vm_compute in rval (th0, None) (handshake_finalize toy (fst tg2)).
Lemma toy_handshake_run : handshake_run toy th0 tg0 hw1 hw2 (oval no_keys (snd th4)) (oval no_keys (snd tg3)).
Proof.
  exists 1000%nat, 2000%nat, 3000%nat, (fst th1), (oval no_packet (snd th1)), (parsed hw1), (fst (fst tg1)), (snd (fst tg1)), (snd tg1),
    (fst tg2), (oval no_packet (snd tg2)), (parsed hw2), (fst (fst th2)), (snd (fst th2)), (snd th2), (fst th3), (snd th3), (fst th4), (fst tg3).
  repeat match goal with |- _ /\ _ => split; [vm_compute; reflexivity|] end. vm_compute. reflexivity.
Qed.
(* the responder's history: a packet, the user's answer, the keys *)
Definition toy_hops : list (hop * nat) := [(HProcess (Some (parsed hw1)), 2000%nat); (HVerify true, 0%nat)].
Definition toy_hhist := Eval vm_compute in rval ([], th0) (hrun toy tg0 toy_hops).
Lemma toy_hhist_eq : hrun toy tg0 toy_hops = Val toy_hhist.
Proof. vm_compute. reflexivity. Qed.
