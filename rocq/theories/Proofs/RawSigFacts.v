(* Facts about raw signatures. *)
From Coq Require Import ZifyBool ZifyNat ZifyN.
From Verif.Base Require Import Bytes.
From Verif.Model Require Import Buffer Ecdsa RawSig.
From Verif.Spec Require Import BufferSpec RawSigSpec.
From Verif.Proofs Require Import BytesFacts BufferFacts BufferProps CodecFacts.
Local Open Scope N_scope.

Lemma number_snoc b c : number (b ++ [c]) = (256 * number b + Z.of_N (b2n c))%Z.
Proof. unfold number. rewrite fold_left_app. reflexivity. Qed.
Lemma number_le b : number b = Z.of_N (le_dec (rev b)).
Proof.
  induction b as [|c b IH] using rev_ind; [reflexivity|]. rewrite number_snoc, IH, rev_app_distr. cbn [rev app le_dec]. lia.
Qed.
Lemma be_enc_length k n : length (be_enc k n) = N.to_nat k.
Proof. unfold be_enc. rewrite rev_length. apply le_enc_length. Qed.
Lemma number_be_enc k n : n < 256 ^ k -> number (be_enc k n) = Z.of_N n.
Proof. intros H. rewrite number_le. unfold be_enc. rewrite rev_involutive, le_dec_enc; [reflexivity|]. rewrite N2Nat.id. exact H. Qed.
Lemma be_enc_number b : be_enc (blen b) (le_dec (rev b)) = b.
Proof.
  unfold be_enc, blen. rewrite Nat2N.id. rewrite <- (rev_length b). rewrite le_enc_dec. apply rev_involutive.
Qed.
Lemma le_enc_zero j : le_enc j 0 = repeat x00 j.
Proof. induction j as [|j IH]; [reflexivity|]. cbn [le_enc repeat]. change (0 / 256) with 0. rewrite IH. reflexivity. Qed.
Lemma le_enc_pad k j n : n < 256 ^ N.of_nat k -> le_enc (k + j) n = (le_enc k n ++ repeat x00 j)%list.
Proof.
  revert n. induction k as [|k IH]; intros n H.
  - change (N.of_nat 0) with 0 in H. rewrite N.pow_0_r in H. assert (n = 0) by lia. subst n. apply le_enc_zero.
  - cbn [Nat.add le_enc app]. f_equal. apply IH. rewrite Nat2N.inj_succ, N.pow_succ_r' in H. apply N.div_lt_upper_bound; lia.
Qed.
Lemma rev_repeat {A} (a : A) n : rev (repeat a n) = repeat a n.
Proof.
  induction n as [|n IH]; [reflexivity|]. cbn [repeat rev]. rewrite IH. clear IH. induction n as [|n IH]; [reflexivity|].
  cbn [repeat app]. rewrite IH. reflexivity.
Qed.
Lemma be_enc_pad k l n : n < 256 ^ k -> k <= l -> be_enc l n = (repeat x00 (N.to_nat (l - k)) ++ be_enc k n)%list.
Proof.
  intros H L. unfold be_enc. replace (N.to_nat l) with (N.to_nat k + N.to_nat (l - k))%nat by lia.
  rewrite le_enc_pad by (rewrite N2Nat.id; exact H). rewrite rev_app_distr, rev_repeat. reflexivity.
Qed.
Lemma num_bytes_bound z : Z.abs_N z < 256 ^ num_bytes z.
Proof.
  unfold num_bytes. set (n := Z.abs_N z). assert (H : n < 2 ^ N.size n) by apply N.size_gt.
  change 256 with (2 ^ 8). rewrite <- N.pow_mul_r. eapply N.lt_le_trans; [exact H|]. apply N.pow_le_mono_r; [lia|].
  pose proof (N.div_mod (N.size n + 7) 8 ltac:(lia)). pose proof (N.mod_lt (N.size n + 7) 8 ltac:(lia)). lia.
Qed.
Lemma size_le n k : n < 2 ^ k -> N.size n <= k.
Proof.
  intros H. destruct (N.eq_dec n 0) as [->|NZ]; [cbn; lia|]. rewrite N.size_log2 by exact NZ.
  apply N.log2_lt_pow2 in H; lia.
Qed.
Lemma num_bytes_66 z : (0 <= z < 2 ^ 528)%Z -> num_bytes z <= 66.
Proof.
  intros H. unfold num_bytes. assert (S : N.size (Z.abs_N z) <= 528).
  { apply size_le. destruct H as (H1 & H2). apply N2Z.inj_lt. rewrite N2Z.inj_abs_N, Z.abs_eq by exact H1. exact H2. }
  change 66 with (535 / 8). apply N.div_le_mono; [lia|]. lia.
Qed.
Lemma num_bytes_pos z : (0 < z)%Z -> 0 < num_bytes z.
Proof.
  intros H. unfold num_bytes. assert (S : 1 <= N.size (Z.abs_N z)).
  { destruct (Z.abs_N z) as [|p] eqn:E; [lia|]. destruct p; cbn; lia. }
  change 0 with (0 / 8). pose proof (N.div_mod (N.size (Z.abs_N z) + 7) 8 ltac:(lia)). pose proof (N.mod_lt (N.size (Z.abs_N z) + 7) 8 ltac:(lia)).
  change (0 / 8) with 0. lia.
Qed.
Lemma abs_66 z : (0 <= z < 2 ^ 528)%Z -> Z.abs_N z < 256 ^ 66.
Proof.
  intros H. eapply N.lt_le_trans; [apply num_bytes_bound|]. apply N.pow_le_mono_r; [lia|]. apply num_bytes_66. exact H.
Qed.

Lemma write_between (a b c x : bytes) : length b = length x ->
  memwrite (a ++ b ++ c)%list (blen a) x (blen x) = Val (a ++ x ++ c)%list.
Proof.
  intros L. unfold memwrite, memread. cbn [N.add]. rewrite N.leb_refl. cbn [rbind]. unfold slice. cbn [N.to_nat skipn].
  rewrite (proj2 (N.leb_le _ _)) by (unfold blen; rewrite !app_length; lia).
  unfold blen. rewrite <- Nat2N.inj_add, !Nat2N.id. rewrite firstn_all.
  rewrite firstn_app, Nat.sub_diag, firstn_all, firstn_O, app_nil_r. f_equal. f_equal. f_equal.
  rewrite skipn_app. replace (length a + length x - length a)%nat with (length x) by lia.
  rewrite skipn_all2 by lia. cbn [app]. rewrite skipn_app, skipn_all2 by lia. rewrite L, Nat.sub_diag. reflexivity.
Qed.
Lemma repeat_split {A} (a : A) n k : (k <= n)%nat -> repeat a n = (repeat a k ++ repeat a (n - k))%list.
Proof. intros H. rewrite <- repeat_app. f_equal. lia. Qed.
Notation zero66 := (repeat x00 66).
Lemma to_bin_ok v r s : fits_raw r s -> handles v r s ->
  ecdsa_bn_to_bin v (repeat x00 132) r s = Val (be_enc 66 (Z.abs_N r) ++ be_enc 66 (Z.abs_N s))%list.
Proof.
  intros (HR & HS) HV. pose proof (num_bytes_66 _ HR) as NR. pose proof (num_bytes_66 _ HS) as NS. unfold ecdsa_bn_to_bin.
  replace (blen (repeat x00 132) / 2) with 66 by reflexivity.
  change (repeat x00 132) with ([] ++ zero66 ++ zero66)%list.
  assert (BR : length zero66 = length (be_enc 66 (Z.abs_N r))) by (rewrite be_enc_length; reflexivity).
  assert (BS : length zero66 = length (be_enc 66 (Z.abs_N s))) by (rewrite be_enc_length; reflexivity).
  assert (P : forall X, bn2binpad X ([] ++ zero66 ++ zero66)%list 0 66 r = Val (be_enc 66 (Z.abs_N r) ++ zero66)%list).
  { intros X. unfold bn2binpad. destruct (N.ltb_spec 66 (num_bytes r)); [lia|].
    pose proof (write_between [] zero66 zero66 (be_enc 66 (Z.abs_N r)) BR) as W. unfold blen at 2 in W. rewrite be_enc_length in W. exact W. }
  assert (P2 : forall X, bn2binpad X (be_enc 66 (Z.abs_N r) ++ zero66)%list 66 66 s = Val (be_enc 66 (Z.abs_N r) ++ be_enc 66 (Z.abs_N s))%list).
  { intros X. unfold bn2binpad. destruct (N.ltb_spec 66 (num_bytes s)); [lia|].
    pose proof (write_between (be_enc 66 (Z.abs_N r)) zero66 [] (be_enc 66 (Z.abs_N s)) BS) as W. unfold blen in W. rewrite !be_enc_length, !app_nil_r in W. exact W. }
  destruct v.
  - rewrite P. cbn [rbind]. apply P2.
  - rewrite P. cbn [rbind]. apply P2.
  - clear P P2. destruct (HV eq_refl) as (PR & PS). apply num_bytes_pos in PR, PS.
    assert (FR : be_enc 66 (Z.abs_N r) = (repeat x00 (N.to_nat (66 - num_bytes r)) ++ be_enc (num_bytes r) (Z.abs_N r))%list)
      by (apply be_enc_pad; [apply num_bytes_bound|exact NR]).
    assert (FS : be_enc 66 (Z.abs_N s) = (repeat x00 (N.to_nat (66 - num_bytes s)) ++ be_enc (num_bytes s) (Z.abs_N s))%list)
      by (apply be_enc_pad; [apply num_bytes_bound|exact NS]).
    assert (M : forall k n, k <= 132 -> n <= k -> (k + two32 - n) mod two32 = k - n).
    { intros k n HK HN. replace (k + two32 - n) with (k - n + 1 * two32) by (unfold two32; lia). rewrite N.mod_add by (unfold two32; lia).
      apply N.mod_small. unfold two32. lia. }
    rewrite (M 66), (M (66 * 2)) by lia.
    assert (W1 : bn2bin ([] ++ zero66 ++ zero66)%list (66 - num_bytes r) r = Val (be_enc 66 (Z.abs_N r) ++ zero66)%list).
    { unfold bn2bin. rewrite FR. cbn [app]. rewrite (repeat_split x00 66 (N.to_nat (66 - num_bytes r))) at 1 by lia. rewrite <- !app_assoc.
      pose proof (write_between (repeat x00 (N.to_nat (66 - num_bytes r))) (repeat x00 (66 - N.to_nat (66 - num_bytes r))) zero66
        (be_enc (num_bytes r) (Z.abs_N r)) ltac:(rewrite repeat_length, be_enc_length; lia)) as W.
      unfold blen in W. rewrite repeat_length, be_enc_length, !N2Nat.id in W. rewrite W. cbn [rbind].
      destruct (N.eqb_spec (num_bytes r) 0); [lia|]. reflexivity. }
    rewrite W1. cbn [rbind]. clear W1.
    unfold bn2bin. rewrite FS. rewrite (repeat_split x00 66 (N.to_nat (66 - num_bytes s))) by lia.
    pose proof (write_between (be_enc 66 (Z.abs_N r) ++ repeat x00 (N.to_nat (66 - num_bytes s))) (repeat x00 (66 - N.to_nat (66 - num_bytes s))) []
        (be_enc (num_bytes s) (Z.abs_N s)) ltac:(rewrite repeat_length, be_enc_length; lia)) as W.
    unfold blen in W. rewrite app_length, repeat_length, !be_enc_length, !N2Nat.id, !app_nil_r, <- !app_assoc in W.
    replace (N.of_nat (N.to_nat 66 + N.to_nat (66 - num_bytes s))) with (66 * 2 - num_bytes s) in W by lia.
    rewrite W. cbn [rbind]. destruct (N.eqb_spec (num_bytes s) 0); [lia|]. reflexivity.
Qed.
Lemma raw_form_be r s : fits_raw r s -> raw_form (be_enc 66 (Z.abs_N r) ++ be_enc 66 (Z.abs_N s))%list r s.
Proof.
  intros (HR & HS). split; [rewrite app_length, !be_enc_length; reflexivity|].
  rewrite firstn_app, skipn_app, !be_enc_length. change (66 - N.to_nat 66)%nat with 0%nat. rewrite firstn_O, app_nil_r, skipn_O.
  rewrite firstn_all2, skipn_all2 by (rewrite be_enc_length; lia). cbn [app].
  rewrite !number_be_enc by (apply abs_66; assumption). rewrite !N2Z.inj_abs_N, !Z.abs_eq by (apply HR || apply HS). split; reflexivity.
Qed.
Lemma be_inj a b : length a = length b -> number a = number b -> a = b.
Proof.
  intros L E. rewrite !number_le in E. apply N2Z.inj in E. rewrite <- (be_enc_number a), <- (be_enc_number b), E. unfold blen. rewrite L. reflexivity.
Qed.
Lemma raw_form_inj a b r s : raw_form a r s -> raw_form b r s -> a = b.
Proof.
  intros (LA & RA & SA) (LB & RB & SB). rewrite <- (firstn_skipn 66 a), <- (firstn_skipn 66 b). f_equal; apply be_inj.
  - rewrite !firstn_length. lia.
  - congruence.
  - rewrite !skipn_length. lia.
  - congruence.
Qed.
Lemma number_bound b : (0 <= number b < 256 ^ Z.of_nat (length b))%Z.
Proof.
  rewrite number_le. split; [lia|]. pose proof (le_dec_lt (rev b)) as H. unfold blen in H. rewrite rev_length in H.
  apply N2Z.inj_lt in H. rewrite N2Z.inj_pow in H. rewrite nat_N_Z in H. exact H.
Qed.
Lemma raw_form_fits raw r s : raw_form raw r s -> fits_raw r s.
Proof.
  intros (L & <- & <-). split.
  - pose proof (number_bound (firstn 66 raw)) as H. rewrite firstn_length, L in H. exact H.
  - pose proof (number_bound (skipn 66 raw)) as H. rewrite skipn_length, L in H. exact H.
Qed.
Lemma to_raw_ok D v x r s : d_d2i D (es_sig x) = Some (r, s) -> fits_raw r s -> handles v r s ->
  exists raw, ecdsa_to_raw D v (Some x) = Val raw /\ raw_form raw r s.
Proof.
  intros E F HV. exists (be_enc 66 (Z.abs_N r) ++ be_enc 66 (Z.abs_N s))%list. split; [|exact (raw_form_be r s F)].
  unfold ecdsa_to_raw. rewrite E. destruct (es_curve x). exact (to_bin_ok v r s F HV).
Qed.
Lemma memread_part b a l : a + l <= blen b -> memread b a l = Val (firstn (N.to_nat l) (skipn (N.to_nat a) b)).
Proof. intros H. unfold memread. rewrite (proj2 (N.leb_le _ _) H). reflexivity. Qed.
Lemma copy_of_bytes e : (0 < length e <= 1024)%nat ->
  exists z, buffer_create_empty_zero (blen e) = Some z /\ memwrite z 0 e (blen e) = Val e.
Proof.
  intros H. exists (repeat x00 (length e)). split.
  - unfold blen. rewrite repeat_zeros.
    assert (S : size_ok (N.of_nat (length e)) = true) by (apply size_ok_limit; unfold within_limit, library_limit; lia).
    rewrite S. reflexivity.
  - pose proof (write_between [] (repeat x00 (length e)) [] e (repeat_length _ _)) as W. cbn [app] in W. rewrite !app_nil_r in W. exact W.
Qed.
Lemma from_raw_ok D c d raw r s : der_ok D -> raw_form raw r s ->
  ecdsa_from_raw D c d (Some raw) = Val {| es_curve := c; es_digest := d; es_sig := d_i2d D r s |}.
Proof.
  intros HD F. pose proof (raw_form_fits _ _ _ F) as FT. destruct (HD r s FT) as (_ & HL). destruct F as (L & HR & HS).
  unfold ecdsa_from_raw. destruct c. assert (B : blen raw = 132) by (unfold blen; rewrite L; reflexivity). rewrite B. cbn [raw_signature_size].
  change (negb (132 =? 132)) with false. cbv iota. change (132 / 2) with 66. rewrite !memread_part by lia. cbn [rbind].
  change (N.to_nat 66) with 66%nat. change (N.to_nat 0) with 0%nat. rewrite skipn_O.
  unfold bin2bn. rewrite <- !number_le. rewrite HR. rewrite (firstn_all2 (skipn 66 raw)) by (rewrite skipn_length; lia). rewrite HS.
  destruct (copy_of_bytes _ HL) as (z & -> & E). cbn [lift rbind]. rewrite E. reflexivity.
Qed.

(* --- the properties --- *)
Lemma from_to D v c d raw r s : der_ok D -> raw_form raw r s -> handles v r s ->
  exists x, ecdsa_from_raw D c d (Some raw) = Val x /\ es_curve x = c /\ es_digest x = d /\ d_d2i D (es_sig x) = Some (r, s) /\
    ecdsa_to_raw D v (Some x) = Val raw.
Proof.
  intros HD F HV. rewrite (from_raw_ok D c d raw r s HD F). eexists. split; [reflexivity|]. split; [reflexivity|]. split; [reflexivity|].
  cbn [es_sig]. pose proof (raw_form_fits _ _ _ F) as FT. destruct (HD r s FT) as (E & _). split; [exact E|].
  destruct (to_raw_ok D v {| es_curve := c; es_digest := d; es_sig := d_i2d D r s |} r s E FT HV) as (raw' & E' & F').
  rewrite E'. f_equal. exact (raw_form_inj _ _ _ _ F' F).
Qed.
Lemma to_from D v x r s : der_ok D -> d_d2i D (es_sig x) = Some (r, s) -> fits_raw r s -> handles v r s ->
  exists raw, ecdsa_to_raw D v (Some x) = Val raw /\ raw_form raw r s /\
    exists y, ecdsa_from_raw D (es_curve x) (es_digest x) (Some raw) = Val y /\ es_curve y = es_curve x /\ es_digest y = es_digest x /\
      d_d2i D (es_sig y) = Some (r, s) /\ (es_sig x = d_i2d D r s -> y = x).
Proof.
  intros HD E F HV. destruct (to_raw_ok D v x r s E F HV) as (raw & R & FR). exists raw. split; [exact R|]. split; [exact FR|].
  eexists. split; [exact (from_raw_ok D _ _ raw r s HD FR)|]. split; [reflexivity|]. split; [reflexivity|]. cbn [es_sig].
  split; [exact (proj1 (HD r s F))|]. intros EX. destruct x as [c d g]. cbn [es_sig es_curve es_digest] in *. rewrite EX. reflexivity.
Qed.
Lemma from_raw_refuses D c d b : length b <> 132%nat -> ecdsa_from_raw D c d (Some b) = Null.
Proof.
  intros H. unfold ecdsa_from_raw. destruct c. cbn [raw_signature_size]. destruct (N.eqb_spec (blen b) 132) as [E|_]; [|reflexivity].
  exfalso. apply H. unfold blen in E. lia.
Qed.
Lemma raw_always b : length b = 132%nat -> raw_form b (number (firstn 66 b)) (number (skipn 66 b)).
Proof. intros L. split; [exact L|]. split; reflexivity. Qed.
Lemma from_raw_total D c d b : der_ok D -> ecdsa_from_raw D c d b <> UB.
Proof.
  intros HD. destruct b as [b|]; [|discriminate]. destruct (Nat.eq_dec (length b) 132) as [L|L].
  - rewrite (from_raw_ok D c d b _ _ HD (raw_always b L)). discriminate.
  - rewrite from_raw_refuses by exact L. discriminate.
Qed.
Lemma aws_bounded z : num_bytes z <= 66 -> (Z.abs z < 2 ^ 528)%Z.
Proof.
  intros H. pose proof (num_bytes_bound z) as B. assert (C : Z.abs_N z < 256 ^ 66).
  { eapply N.lt_le_trans; [exact B|]. apply N.pow_le_mono_r; [lia|exact H]. }
  apply N2Z.inj_lt in C. rewrite N2Z.inj_abs_N in C. exact C.
Qed.
Lemma abs_abs z : Z.abs_N (Z.abs z) = Z.abs_N z.
Proof. destruct z; reflexivity. Qed.
(* with AWS-LC: NULL, or the raw form of the magnitudes *)
Lemma to_raw_aws D x raw : ecdsa_to_raw D AWS_LC (Some x) = Val raw ->
  exists r s, d_d2i D (es_sig x) = Some (r, s) /\ raw_form raw (Z.abs r) (Z.abs s).
Proof.
  unfold ecdsa_to_raw. destruct (d_d2i D (es_sig x)) as [[r s]|]; [|discriminate]. intros E. exists r, s. split; [reflexivity|].
  destruct (es_curve x). cbn [raw_signature_size] in E. change (buffer_create_empty_zero 132) with (Some (repeat x00 132)) in E. cbn [lift rbind] in E.
  assert (H : num_bytes r <= 66 /\ num_bytes s <= 66).
  { unfold ecdsa_bn_to_bin in E. replace (blen (repeat x00 132) / 2) with 66 in E by reflexivity. unfold bn2binpad in E.
    destruct (N.ltb_spec 66 (num_bytes r)); [discriminate E|]. destruct (memwrite _ _ _ _) as [o| |]; cbn [rbind] in E; try discriminate E.
    destruct (N.ltb_spec 66 (num_bytes s)); [discriminate E|]. lia. }
  destruct H as (HR & HS). apply aws_bounded in HR, HS.
  assert (F : fits_raw (Z.abs r) (Z.abs s)) by (split; split; try apply Z.abs_nonneg; assumption).
  assert (S : forall out, ecdsa_bn_to_bin AWS_LC out r s = ecdsa_bn_to_bin AWS_LC out (Z.abs r) (Z.abs s)).
  { intros out. unfold ecdsa_bn_to_bin, bn2binpad, num_bytes. rewrite !abs_abs. reflexivity. }
  rewrite S in E. rewrite (to_bin_ok AWS_LC _ _ F) in E by (intros K; discriminate K). injection E as <-. exact (raw_form_be _ _ F).
Qed.

(* --- a concrete DER codec for these numbers --- *)
Definition der_int (z : Z) : bytes :=
  let k := N.size (Z.to_N z) / 8 + 1 in (x02 :: n2b k :: be_enc k (Z.to_N z)).
Definition toy_i2d (r s : Z) : bytes :=
  let body := (der_int r ++ der_int s)%list in
  if blen body <? 128 then x30 :: n2b (blen body) :: body else x30 :: x81 :: n2b (blen body) :: body.
Definition signed (b : bytes) : Z :=
  let n := number b in if (2 ^ (8 * Z.of_nat (length b) - 1) <=? n)%Z then (n - 2 ^ (8 * Z.of_nat (length b)))%Z else n.
Definition take_int (b : bytes) : option (Z * bytes) :=
  match b with
  | t :: l :: rest =>
      if Byte.eqb t x02 && (b2n l <? 128) && (1 <=? b2n l) && (b2n l <=? blen rest)
      then Some (signed (firstn (N.to_nat (b2n l)) rest), skipn (N.to_nat (b2n l)) rest) else None
  | _ => None
  end.
Definition take_two (n : N) (b : bytes) : option (Z * Z) :=
  if negb (n <=? blen b) then None
  else match take_int (firstn (N.to_nat n) b) with
       | Some (r, rest) => match take_int rest with Some (s, []) => Some (r, s) | _ => None end
       | None => None
       end.
Definition toy_d2i (b : bytes) : option (Z * Z) :=
  match b with
  | t :: l :: rest =>
      if negb (Byte.eqb t x30) then None
      else if b2n l <? 128 then take_two (b2n l) rest
      else if b2n l =? 129 then match rest with n :: rest' => take_two (b2n n) rest' | [] => None end
      else None
  | _ => None
  end.
Definition toy_der : der := {| d_d2i := toy_d2i; d_i2d := toy_i2d |}.
Lemma int_size z : (0 <= z < 2 ^ 528)%Z -> 1 <= N.size (Z.to_N z) / 8 + 1 <= 67.
Proof.
  intros H. assert (S : N.size (Z.to_N z) <= 528).
  { apply size_le. apply N2Z.inj_lt. rewrite Z2N.id by lia. apply H. }
  pose proof (N.div_le_mono _ _ 8 ltac:(lia) S) as D. change (528 / 8) with 66 in D. lia.
Qed.
Lemma der_int_length z : (0 <= z < 2 ^ 528)%Z -> (length (der_int z) = 2 + N.to_nat (N.size (Z.to_N z) / 8 + 1))%nat.
Proof. intros H. unfold der_int. cbn [length]. rewrite be_enc_length. reflexivity. Qed.
Lemma take_int_ok z rest : (0 <= z < 2 ^ 528)%Z -> take_int (der_int z ++ rest) = Some (z, rest).
Proof.
  intros H. pose proof (int_size z H) as S. unfold der_int. set (k := N.size (Z.to_N z) / 8 + 1) in *. cbn [app take_int].
  rewrite b2n_n2b, N.mod_small by lia. change (Byte.eqb x02 x02) with true. cbn [andb].
  rewrite (proj2 (N.ltb_lt k 128)), (proj2 (N.leb_le 1 k)) by lia. cbn [andb].
  rewrite (proj2 (N.leb_le _ _)) by (unfold blen; rewrite app_length, be_enc_length; lia).
  rewrite firstn_app, skipn_app, be_enc_length, Nat.sub_diag, firstn_O, skipn_O, app_nil_r.
  rewrite firstn_all2, skipn_all2 by (rewrite be_enc_length; lia). cbn [app]. f_equal. f_equal.
  assert (B : Z.to_N z < 2 ^ (8 * k - 1)).
  { eapply N.lt_le_trans; [apply N.size_gt|]. apply N.pow_le_mono_r; [lia|].
    pose proof (N.div_mod (N.size (Z.to_N z)) 8 ltac:(lia)). pose proof (N.mod_lt (N.size (Z.to_N z)) 8 ltac:(lia)). unfold k. lia. }
  unfold signed. rewrite be_enc_length. rewrite number_be_enc.
  2:{ change 256 with (2 ^ 8). rewrite <- N.pow_mul_r. eapply N.lt_le_trans; [exact B|]. apply N.pow_le_mono_r; lia. }
  rewrite Z2N.id by lia. destruct (Z.leb_spec (2 ^ (8 * Z.of_nat (N.to_nat k) - 1)) z) as [L|L]; [|reflexivity]. exfalso.
  apply N2Z.inj_lt in B. rewrite N2Z.inj_pow, Z2N.id in B by lia. replace (8 * Z.of_nat (N.to_nat k) - 1)%Z with (Z.of_N (8 * k - 1)) in L by lia. lia.
Qed.
Lemma toy_der_ok : der_ok toy_der.
Proof.
  intros r s (HR & HS). cbn [toy_der d_d2i d_i2d]. unfold toy_i2d. pose proof (der_int_length r HR) as LR. pose proof (der_int_length s HS) as LS.
  pose proof (int_size r HR). pose proof (int_size s HS). set (body := (der_int r ++ der_int s)%list).
  assert (LB : blen body <= 138) by (unfold blen, body; rewrite app_length; lia).
  assert (T : take_two (blen body) body = Some (r, s)).
  { unfold take_two. rewrite N.leb_refl. cbn [negb]. unfold blen. rewrite Nat2N.id, firstn_all. unfold body.
    rewrite take_int_ok by exact HR. rewrite <- (app_nil_r (der_int s)), take_int_ok by exact HS. reflexivity. }
  unfold blen in LB. destruct (N.ltb_spec (blen body) 128) as [L|L].
  - split; [|cbn [length]; lia]. cbn [toy_d2i]. change (negb (Byte.eqb x30 x30)) with false. cbv iota.
    rewrite b2n_n2b, N.mod_small by lia. rewrite (proj2 (N.ltb_lt _ _) L). exact T.
  - split; [|cbn [length]; lia]. cbn [toy_d2i]. change (negb (Byte.eqb x30 x30)) with false. cbv iota.
    change (b2n x81 <? 128) with false. change (b2n x81 =? 129) with true. cbv iota. rewrite b2n_n2b, N.mod_small by (unfold blen; lia). exact T.
Qed.
