(* Concrete objects over the toy primitives, for the examples beside the theorems. *)
From Verif.Base Require Import Bytes Monad.
From Verif.Model Require Import Buffer Cipher Ecdsa Prims Engine Identity Node.
From Verif.Spec Require Import BufferSpec CodecSpec IdentitySpec.
From Verif.Proofs Require Import BytesFacts ToyPrims.
Local Open Scope N_scope.

Definition no_key : ec_key := {| ek_curve := P521; ek_pub := []; ek_pri := None |}.
Definition val {A} (d : A) (r : res A * nat) : A := match fst r with Val a => a | _ => d end.
Definition rval {A} (d : A) (r : res A) : A := match r with Val a => a | _ => d end.
Definition oval {A} (d : A) (r : option A) : A := match r with Some a => a | None => d end.
Definition toy_key (i : nat) : ec_key := val no_key (ec_rand_key toy P521 i).
Definition toy_root (i : nat) : identity :=
  {| id_type := ID_ROOT; id_identifier := toy_digest 32 [n2b (N.of_nat i)]; id_key := toy_key i; id_signature := None |}.
Definition toy_node_id (i : nat) : identity := val (toy_root i) (node_identity_gen toy (Some (toy_root i)) (Some (toy_digest 32 [x01; n2b (N.of_nat i)])) (100 + i)%nat).
Definition toy_chain (i : nat) : chain := {| ch_root := toy_root i; ch_node := toy_node_id i; ch_status := S_UNKNOWN; ch_cache := None |}.
Definition toy_keypair (i : nat) (id : N) : keypair :=
  val {| kp_identifier := 0; kp_key := no_key; kp_signature := None |}
    (keypair_generate_identity toy id (Some (toy_node_id i)) (200 + i + 17 * N.to_nat id)%nat).
Definition toy_node (i : nat) : node :=
  {| nd_dev_id := [x64; n2b (N.of_nat i)]; nd_chain := toy_chain i; nd_keypair := Some (toy_keypair i 7); nd_status := S_UNKNOWN; nd_cache := None |}.

Lemma toy_key_made i : engine_key toy (toy_key i).
Proof.
  apply (made_random toy (toy_key i) i (S i)). unfold toy_key, val, ec_rand_key. cbn [toy p_ec_gen].
  set (q := x30 :: toy_digest 32 (le_enc 8 (N.of_nat i))).
  assert (L : length q = 33%nat) by (unfold q; cbn [length]; rewrite toy_digest_length; reflexivity).
  clearbody q. destruct q as [|a q]; [discriminate|].
  destruct (ec_pri_key_to_buffer (a :: q)) as [x|] eqn:E1.
  - destruct (ec_pub_key_to_buffer P521 (toy_pub (a :: q))) as [y|] eqn:E2; [reflexivity|]. exfalso. revert E2.
    unfold ec_pub_key_to_buffer, toy_pub. cbn [tl]. unfold buffer_create. cbn [length] in L. unfold size_ok, blen. cbn [length].
    rewrite app_length, repeat_length. replace (length q) with 32%nat by lia. discriminate.
  - exfalso. revert E1. unfold ec_pri_key_to_buffer, buffer_create, size_ok, blen. cbn [length] in *. replace (length q) with 32%nat by lia. discriminate.
Qed.
Definition collision_freeb (P : prims) (l : list bytes) : bool :=
  let t := map (fun x => (x, p_sha P SHA512 x)) l in
  forallb (fun x => forallb (fun y => if beqb (snd x) (snd y) then beqb (fst x) (fst y) else true) t) t.
Lemma collision_freeb_ok P l : collision_freeb P l = true -> collision_free P l.
Proof.
  intros H x y Hx Hy E. unfold collision_freeb in H. cbv zeta in H. rewrite forallb_forall in H.
  specialize (H (x, p_sha P SHA512 x) (in_map _ _ _ Hx)). rewrite forallb_forall in H.
  specialize (H (y, p_sha P SHA512 y) (in_map _ _ _ Hy)). cbn [fst snd] in H. rewrite E, beqb_refl in H. apply beqb_spec in H. exact H.
Qed.
Definition answers_rightb {A} (truth : A -> bool) (t : list (A * option bool)) : bool :=
  forallb (fun xa => match snd xa with Some b => Bool.eqb b (truth (fst xa)) | None => true end) t.
Lemma answers_rightb_ok {A} (truth : A -> bool) t : answers_rightb truth t = false -> ~ answers_right truth t.
Proof.
  intros F H. enough (T : answers_rightb truth t = true) by congruence.
  apply forallb_forall. intros [c [b|]] I; [|reflexivity]. cbn [fst snd]. rewrite (H c b I). apply Bool.eqb_reflx.
Qed.
Lemma states_ok {A} (Q : A -> Prop) (q : A -> bool) (t : list (A * option bool)) : (forall x, q x = true -> Q x) ->
  forallb (fun xa => q (fst xa)) t = true -> forall x a, In (x, a) t -> Q x.
Proof. intros H F x a I. rewrite forallb_forall in F. apply H. exact (F _ I). Qed.
Definition full_sizeb (k : ec_key) : bool := Nat.eqb (length (ek_pub k)) 134.
Lemma full_sizeb_ok k : full_sizeb k = true -> full_size k.
Proof. apply Nat.eqb_eq. Qed.
Definition is_sha512 (s : option ecdsa_result) : bool := match s with Some x => match es_digest x with SHA512 => true | _ => false end | None => true end.
Lemma is_sha512_ok s : is_sha512 s = true -> forall x, s = Some x -> es_digest x = SHA512.
Proof. intros H x ->. cbn [is_sha512] in H. destruct (es_digest x); [discriminate|discriminate|reflexivity]. Qed.
Definition regular_chainb (c : chain) : bool := full_sizeb (id_key (ch_root c)) && full_sizeb (id_key (ch_node c)) && is_sha512 (id_signature (ch_node c)).
Lemma regular_chainb_ok c : regular_chainb c = true -> regular_chain c.
Proof.
  unfold regular_chainb. intros H. apply andb_prop in H. destruct H as [H C]. apply andb_prop in H. destruct H as [A B].
  split; [apply full_sizeb_ok, A|]. split; [apply full_sizeb_ok, B|apply is_sha512_ok, C].
Qed.
Definition regular_keypairb (n : node) : bool := match nd_keypair n with Some k => full_sizeb (kp_key k) && is_sha512 (kp_signature k) | None => true end.
Lemma regular_keypairb_ok n : regular_keypairb n = true -> regular_keypair n.
Proof.
  unfold regular_keypairb, regular_keypair. intros H k E. rewrite E in H. apply andb_prop in H. destruct H as [A B].
  split; [apply full_sizeb_ok, A|apply is_sha512_ok, B].
Qed.
