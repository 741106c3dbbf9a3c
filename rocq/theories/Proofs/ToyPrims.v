(* One concrete set of primitives satisfying every law of Model/Prims.v, so that no theorem's
   hypotheses are contradictory.  It has no cryptographic strength. *)
From Verif.Base Require Import Bytes.
From Verif.Model Require Import Buffer Cipher Ecdsa Prims.
From Verif.Proofs Require Import BytesFacts.
Local Open Scope N_scope.

(* a position-dependent running sum, spread over n bytes *)
Fixpoint mix (m : bytes) (acc : N) : N :=
  match m with [] => acc | b :: r => mix r ((acc * 31 + b2n b + 7) mod 4294967291) end.
Definition toy_digest (n : nat) (m : bytes) : bytes :=
  let h := mix m 5381 in map (fun i => n2b (mix [n2b (N.of_nat i)] h / 2 ^ (8 * N.of_nat (i mod 4)))) (seq 0 n).
Definition toy_pub (pri : bytes) : bytes := x04 :: tl pri ++ repeat x00 100.
Definition toy_pri_ok (b : bytes) : bool := (blen b =? 33) && match b with c :: _ => Byte.eqb c x30 | [] => false end.
Definition toy_d2i (b : bytes) : option (bytes * bytes) := if toy_pri_ok b then Some (toy_pub b, b) else None.
Definition toy_o2i (b : bytes) : option bytes := if (blen b =? 133) then Some b else None.
Definition toy_tag (k iv aad ct : bytes) : bytes := toy_digest 16 (k ++ iv ++ le_enc 8 (blen aad) ++ aad ++ ct).
Definition flip (b : byte) : byte := n2b (255 - b2n b).
(* an involution for every c *)
Definition reflect_byte (c : N) (b : byte) : byte := n2b (c mod 256 + 256 - b2n b).
Definition toy : prims := {|
  p_gcm_enc := fun k iv aad pt => (map flip pt, toy_tag k iv aad (map flip pt));
  p_gcm_dec := fun k iv aad ct tag => if beqb tag (toy_tag k iv aad ct) then Some (map flip ct) else None;
  p_ctr := fun k iv d => map (reflect_byte (mix (k ++ iv) 1)) d;
  p_sha := fun d m => toy_digest (N.to_nat (digest_size d)) m;
  p_hmac := fun d k m => toy_digest (N.to_nat (digest_size d)) (k ++ m);
  p_hkdf := fun d salt k info n => Some (toy_digest (N.to_nat n) (salt ++ k ++ info));
  p_hkdf_expand := fun d k info n => Some (toy_digest (N.to_nat n) (k ++ info));
  p_scrypt := fun pw salt n r p len => Some (toy_digest (N.to_nat len) (pw ++ salt ++ le_enc 8 n));
  p_gensalt := fun w r => Some (repeat x2e 7 ++ repeat x2f 22);
  p_crypt := fun pw setting => Some (setting ++ map (fun _ => x2e) (toy_digest 31 pw));
  p_rand := fun i n => Some (toy_digest (N.to_nat n) (le_enc 8 (N.of_nat i)));
  p_ec_gen := fun i => let pri := x30 :: toy_digest 32 (le_enc 8 (N.of_nat i)) in Some (toy_pub pri, pri);
  p_d2i := toy_d2i;
  p_o2i := toy_o2i;
  p_inf := fun b => beqb b [x00];
  p_sign := fun d pri msg i => if toy_pri_ok pri then Some (x30 :: toy_digest 64 (toy_pub pri ++ msg)) else None;
  p_verify := fun d pub msg s => beqb s (x30 :: toy_digest 64 (pub ++ msg));
  p_ecdh := fun pri pub => if toy_pri_ok pri then Some (le_enc 66 (mix (toy_pub pri) 1 + mix pub 1)) else None
|}.

Lemma toy_digest_length n m : length (toy_digest n m) = n.
Proof. unfold toy_digest. cbv zeta. rewrite map_length, seq_length. reflexivity. Qed.
Lemma toy_digest_blen n m : blen (toy_digest (N.to_nat n) m) = n.
Proof. unfold blen. rewrite toy_digest_length. lia. Qed.
Lemma flip_flip b : flip (flip b) = b.
Proof. destruct b; reflexivity. Qed.
Lemma map_flip l : map flip (map flip l) = l.
Proof. rewrite map_map. rewrite (map_ext _ (fun x => x)); [apply map_id|]. apply flip_flip. Qed.
Lemma reflect_reflect c b : reflect_byte c (reflect_byte c b) = b.
Proof.
  apply b2n_inj. unfold reflect_byte. rewrite !b2n_n2b. pose proof (b2n_lt b) as L.
  assert (R : c mod 256 < 256) by (apply N.mod_upper_bound; discriminate). revert R. generalize (c mod 256) as e. intros e R.
  destruct (N.le_gt_cases (b2n b) e) as [G|G].
  - replace (e + 256 - b2n b) with (e - b2n b + 1 * 256) by lia. rewrite N.mod_add, (N.mod_small (e - b2n b)) by lia.
    replace (e + 256 - (e - b2n b)) with (b2n b + 1 * 256) by lia. rewrite N.mod_add, N.mod_small by lia. reflexivity.
  - rewrite (N.mod_small (e + 256 - b2n b)) by lia. replace (e + 256 - (e + 256 - b2n b)) with (b2n b) by lia. apply N.mod_small. exact L.
Qed.
Lemma map_reflect c l : map (reflect_byte c) (map (reflect_byte c) l) = l.
Proof. rewrite map_map. rewrite (map_ext _ (fun x => x)); [apply map_id|]. apply reflect_reflect. Qed.
Lemma toy_pub_length b : toy_pri_ok b = true -> blen (toy_pub b) = 133.
Proof.
  unfold toy_pri_ok, toy_pub. intros H. apply andb_prop in H. destruct H as [H1 H2]. apply N.eqb_eq in H1.
  destruct b as [|c b]; [discriminate|]. cbn [tl]. rewrite blen_cons, blen_app. rewrite blen_cons in H1.
  change (blen (repeat x00 100)) with 100. lia.
Qed.
Lemma toy_aead : aead_ok toy.
Proof.
  intros k iv aad pt. cbn [toy p_gcm_enc p_gcm_dec fst snd]. rewrite map_length. unfold toy_tag.
  rewrite toy_digest_length, beqb_refl, map_flip. auto.
Qed.
Lemma toy_aead_len : aead_len_ok toy.
Proof.
  intros k iv aad ct tag pt. cbn [toy p_gcm_dec]. destruct (beqb _ _); [|discriminate]. intros H. apply Some_inj in H. subst pt.
  apply map_length.
Qed.
Lemma toy_ctr : ctr_ok toy.
Proof. intros k iv d. cbn [toy p_ctr]. rewrite map_length, map_reflect. auto. Qed.
Lemma toy_sha : sha_ok toy.
Proof. intros d m. apply toy_digest_blen. Qed.
Lemma toy_hmac : hmac_ok toy.
Proof. intros d k m. apply toy_digest_blen. Qed.
Lemma toy_hkdf : hkdf_ok toy.
Proof. split; intros; cbn [toy p_hkdf p_hkdf_expand] in H; apply Some_inj in H; subst b; apply toy_digest_blen. Qed.
Lemma toy_scrypt : scrypt_ok toy.
Proof. intros pw salt n r p len b H. cbn [toy p_scrypt] in H. apply Some_inj in H; subst b; apply toy_digest_blen. Qed.
Lemma toy_rand : rand_ok toy.
Proof. intros i n b H. cbn [toy p_rand] in H. apply Some_inj in H; subst b; apply toy_digest_blen. Qed.
Lemma toy_pairs pub pri : pairs toy pub pri -> toy_pri_ok pri = true /\ pub = toy_pub pri.
Proof.
  intros [der H]. cbn [toy p_d2i] in H. unfold toy_d2i in H. destruct (toy_pri_ok pri); [|discriminate]. injection H as <- _. auto.
Qed.
Lemma toy_sign : sign_ok toy.
Proof.
  intros d pub pri msg i s Hp H. apply toy_pairs in Hp. destruct Hp as [Hp ->]. cbn [toy p_sign p_verify] in *. rewrite Hp in H.
  apply Some_inj in H. subst s. rewrite beqb_refl. cbn [length]. rewrite toy_digest_length. split; [reflexivity|]. lia.
Qed.
Lemma toy_ec : ec_ok toy.
Proof.
  split; [|split].
  - intros i pub pri H. cbn [toy p_ec_gen p_d2i] in *. set (q := x30 :: toy_digest 32 (le_enc 8 (N.of_nat i))) in *.
    injection H as <- <-. unfold toy_d2i. replace (toy_pri_ok q) with true; [reflexivity|].
    unfold toy_pri_ok, q. rewrite blen_cons. unfold blen. rewrite toy_digest_length. reflexivity.
  - intros pri pub der H. cbn [toy p_d2i p_o2i] in *. unfold toy_d2i in *. destruct (toy_pri_ok pri) eqn:E; [|discriminate].
    injection H as <- <-. rewrite E. split; [reflexivity|]. unfold toy_o2i. rewrite (toy_pub_length pri E). split; [reflexivity|].
    unfold toy_pri_ok in E. apply andb_prop in E. destruct E as [E _]. apply N.eqb_eq in E. lia.
  - intros b o H. cbn [toy p_o2i] in *. unfold toy_o2i in *. destruct (N.eqb_spec (blen b) 133) as [E|]; [|discriminate].
    apply Some_inj in H. subst o. rewrite E. split; [reflexivity|lia].
Qed.
Lemma toy_gen : gen_ok toy.
Proof.
  intros i pub pri H. cbn [toy p_ec_gen p_inf] in *. injection H as <- <-. split; [reflexivity|].
  apply toy_pub_length. unfold toy_pri_ok. rewrite blen_cons. unfold blen. rewrite toy_digest_length. reflexivity.
Qed.
Lemma toy_ecdh : ecdh_ok toy.
Proof.
  split.
  - intros pub1 pri1 pub2 pri2 H1 H2. apply toy_pairs in H1, H2. destruct H1 as [E1 ->], H2 as [E2 ->].
    cbn [toy p_ecdh]. rewrite E1, E2, N.add_comm. reflexivity.
  - intros pri pub s H. cbn [toy p_ecdh] in H. destruct (toy_pri_ok pri); [|discriminate]. apply Some_inj in H. subst s.
    unfold blen. rewrite le_enc_length. lia.
Qed.
