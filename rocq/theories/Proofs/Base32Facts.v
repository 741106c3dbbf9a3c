(* Base32: conformance, round trip, rejection, memory safety *)
From Verif.Base Require Import Bytes.
From Verif.Model Require Import Buffer Base32.
From Verif.Spec Require Import TextSpec.
From Verif.Proofs Require Import BytesFacts BufferFacts TextFacts.
From Coq Require Import ZifyBool ZifyNat ZifyN.
Ltac Zify.zify_post_hook ::= Z.div_mod_to_equations.

Lemma lor_add a b k : (b < 2 ^ k)%N -> N.lor (a * 2 ^ k) b = (a * 2 ^ k + b)%N.
Proof.
  intros H.
  assert (E : N.land (a * 2 ^ k) b = 0%N).
  { apply N.bits_inj. intros i. rewrite N.land_spec, N.bits_0.
    destruct (N.lt_ge_cases i k) as [Hi|Hi].
    - rewrite N.mul_pow2_bits_low by exact Hi. reflexivity.
    - destruct (N.testbit b i) eqn:Eb; [|apply andb_false_r].
      exfalso. destruct (N.eq_dec b 0) as [->|Hb]; [rewrite N.bits_0 in Eb; discriminate|].
      assert (N.log2 b < k)%N by (apply N.log2_lt_pow2; lia).
      rewrite N.bits_above_log2 in Eb; [discriminate|lia]. }
  rewrite N.add_nocarry_lxor by exact E. symmetry. apply N.lxor_lor. exact E.
Qed.

Local Open Scope N_scope.

Definition V5 (a b c d e : byte) : N :=
  (((b2n a * 256 + b2n b) * 256 + b2n c) * 256 + b2n d) * 256 + b2n e.
Definition V8 (q0 q1 q2 q3 q4 q5 q6 q7 : N) : N :=
  ((((((q0 * 32 + q1) * 32 + q2) * 32 + q3) * 32 + q4) * 32 + q5) * 32 + q6) * 32 + q7.

Lemma V5_lt a b c d e : V5 a b c d e < 2 ^ 40.
Proof.
  unfold V5. pose proof (b2n_lt a). pose proof (b2n_lt b). pose proof (b2n_lt c).
  pose proof (b2n_lt d). pose proof (b2n_lt e). change (2 ^ 40) with 1099511627776. lia.
Qed.

Lemma pack_fold shift l : Forall (fun b => b2n b < 2 ^ shift) l ->
  forall acc k, acc < 2 ^ k -> k + shift * blen l <= 64 ->
  fold_left (fun acc b => N.lor ((acc * 2 ^ shift) mod two64) (b2n b)) l acc =
  fold_left (fun acc b => acc * 2 ^ shift + b2n b) l acc.
Proof.
  intros H. induction H as [|b l Hb Hl IH]; intros acc k Hacc Hk; [reflexivity|].
  cbn [fold_left]. rewrite blen_cons in Hk.
  assert (Hm : acc * 2 ^ shift < 2 ^ (k + shift)).
  { rewrite N.pow_add_r. apply N.mul_lt_mono_pos_r; [|exact Hacc].
    apply N.neq_0_lt_0, N.pow_nonzero. lia. }
  assert (Hp : 2 ^ (k + shift) <= two64).
  { change two64 with (2 ^ 64). apply N.pow_le_mono_r; lia. }
  rewrite N.mod_small by lia. rewrite lor_add by exact Hb.
  apply (IH _ (k + shift)); [|lia].
  rewrite N.pow_add_r in *.
  assert ((acc + 1) * 2 ^ shift <= 2 ^ k * 2 ^ shift) by (apply N.mul_le_mono_r; lia). lia.
Qed.
Lemma pack_eq shift l : Forall (fun b => b2n b < 2 ^ shift) l -> shift * blen l <= 64 ->
  b32_pack shift l = fold_left (fun acc b => acc * 2 ^ shift + b2n b) l 0.
Proof. intros H Hl. unfold b32_pack. apply (pack_fold shift l H 0 0); [reflexivity|lia]. Qed.

Lemma pack5_V a b c d e : b32_pack 8 [a; b; c; d; e] = V5 a b c d e.
Proof.
  rewrite pack_eq; [|repeat constructor; apply b2n_lt|vm_compute; discriminate].
  unfold V5. cbn [fold_left]. change (2 ^ 8) with 256. rewrite N.mul_0_l, N.add_0_l. reflexivity.
Qed.

Lemma pack8_V q0 q1 q2 q3 q4 q5 q6 q7 :
  q0 < 32 -> q1 < 32 -> q2 < 32 -> q3 < 32 -> q4 < 32 -> q5 < 32 -> q6 < 32 -> q7 < 32 ->
  b32_pack 5 (map n2b [q0; q1; q2; q3; q4; q5; q6; q7]) = V8 q0 q1 q2 q3 q4 q5 q6 q7.
Proof.
  intros H0 H1 H2 H3 H4 H5 H6 H7.
  rewrite pack_eq; [|repeat constructor; rewrite b2n_n2b_small by lia; assumption|vm_compute; discriminate].
  unfold V8. cbn [map fold_left]. change (2 ^ 5) with 32. rewrite !b2n_n2b_small by lia. lia.
Qed.

(* digits j V: the base-32 digits of V at positions j, j-1, ..., 0 *)
Fixpoint digits (j : nat) (V : N) : list N :=
  ((V / 2 ^ (N.of_nat j * 5)) mod 32) :: match j with O => [] | S j' => digits j' V end.
Lemma digits_mod j m V : N.of_nat j < m -> digits j (V mod 2 ^ (m * 5)) = digits j V.
Proof.
  revert m. induction j as [|j IH]; intros m Hm; cbn [digits].
  - f_equal. change (N.of_nat 0 * 5) with 0. rewrite N.pow_0_r, !N.div_1_r.
    replace (m * 5) with (5 + (m * 5 - 5)) by lia. rewrite N.pow_add_r. change (2 ^ 5) with 32.
    rewrite N.mod_mul_r by (try lia; apply N.pow_nonzero; lia).
    rewrite (N.mul_comm 32), N.mod_add, N.mod_mod by lia. reflexivity.
  - f_equal.
    + set (k := N.of_nat (S j) * 5).
      replace (m * 5) with (k + (5 + (m * 5 - k - 5))) by (unfold k; lia).
      rewrite (N.pow_add_r 2 k).
      rewrite N.mod_mul_r by (apply N.pow_nonzero; lia).
      rewrite N.mul_comm, N.div_add by (apply N.pow_nonzero; lia).
      rewrite (N.div_small (V mod 2 ^ k)) by (apply N.mod_upper_bound, N.pow_nonzero; lia).
      rewrite N.add_0_l. rewrite (N.pow_add_r 2 5). change (2 ^ 5) with 32.
      rewrite N.mod_mul_r by (try lia; apply N.pow_nonzero; lia).
      rewrite (N.mul_comm 32), N.mod_add, N.mod_mod by lia. reflexivity.
    + apply IH. lia.
Qed.
Lemma digits_lt j V : Forall (fun q => q < 32) (digits j V).
Proof.
  induction j as [|j IH]; cbn [digits]; constructor; try apply Forall_nil; try exact IH;
    apply N.mod_upper_bound; lia.
Qed.

Lemma emit_digits j V : (j <= 7)%nat -> b32_emit j V = Some (map n2b (digits j V)).
Proof.
  revert V. induction j as [|j IH]; intros V Hj.
  - cbn [b32_emit digits map]. change (N.of_nat 0) with 0.
    replace (24 + (7 - 0) * 5) with 59 by lia.
    change (0 * 5) with 0. rewrite N.pow_0_r, !N.div_1_r.
    assert (E : (V * 2 ^ 59) mod two64 / 2 ^ 59 = V mod 32).
    { change two64 with (2 ^ 59 * 32). rewrite N.mul_comm, N.mul_mod_distr_l by lia.
      rewrite N.mul_comm, N.div_mul by lia. reflexivity. }
    rewrite E. pose proof (N.mod_upper_bound V 32). rewrite b2n_n2b_small by lia.
    destruct (32 <=? V mod 32) eqn:F; [lia|]. reflexivity.
  - cbn [b32_emit]. set (s := 24 + (7 - N.of_nat (S j)) * 5).
    set (w := N.of_nat (S (S j)) * 5).
    assert (Hsw : s + w = 64) by (unfold s, w; lia).
    assert (E : (V * 2 ^ s) mod two64 / 2 ^ s = V mod 2 ^ w).
    { change two64 with (2 ^ 64). rewrite <- Hsw, N.pow_add_r.
      rewrite N.mul_comm, N.mul_mod_distr_l by (apply N.pow_nonzero; lia).
      rewrite N.mul_comm, N.div_mul by (apply N.pow_nonzero; lia). reflexivity. }
    rewrite E.
    assert (Ed : map n2b (digits (S j) V) = n2b ((V mod 2 ^ w) / 2 ^ (N.of_nat (S j) * 5)) :: map n2b (digits j (V mod 2 ^ w))).
    { unfold w. rewrite digits_mod by lia.
      rewrite <- (digits_mod (S j) (N.of_nat (S (S j))) V) by lia. cbn [digits map]. f_equal.
      - f_equal. apply N.mod_small.
        apply N.div_lt_upper_bound; [apply N.pow_nonzero; lia|].
        change 32 with (2 ^ 5). rewrite <- N.pow_add_r.
        replace (N.of_nat (S j) * 5 + 5) with (N.of_nat (S (S j)) * 5) by lia.
        apply N.mod_upper_bound, N.pow_nonzero. lia.
      - rewrite digits_mod by lia. reflexivity. }
    assert (Hc : (V mod 2 ^ w) / 2 ^ (N.of_nat (S j) * 5) < 32).
    { apply N.div_lt_upper_bound; [apply N.pow_nonzero; lia|].
      change 32 with (2 ^ 5). rewrite <- N.pow_add_r.
      replace (N.of_nat (S j) * 5 + 5) with w by (unfold w; lia).
      apply N.mod_upper_bound, N.pow_nonzero. lia. }
    rewrite b2n_n2b_small by lia.
    destruct (32 <=? V mod 2 ^ w / 2 ^ (N.of_nat (S j) * 5)) eqn:F; [lia|].
    rewrite IH by lia. rewrite Ed. reflexivity.
Qed.

Lemma digits7 V : digits 7 V =
  [ (V / 34359738368) mod 32; (V / 1073741824) mod 32; (V / 33554432) mod 32; (V / 1048576) mod 32;
    (V / 32768) mod 32; (V / 1024) mod 32; (V / 32) mod 32; V mod 32 ].
Proof. cbn [digits]. change (N.of_nat 0 * 5) with 0. rewrite N.pow_0_r, N.div_1_r. reflexivity. Qed.

Lemma V8_digits V : V < 2 ^ 40 ->
  V8 ((V / 34359738368) mod 32) ((V / 1073741824) mod 32) ((V / 33554432) mod 32) ((V / 1048576) mod 32)
    ((V / 32768) mod 32) ((V / 1024) mod 32) ((V / 32) mod 32) (V mod 32) = V.
Proof.
  change (2 ^ 40) with 1099511627776. intros H. unfold V8.
  change 1024 with (32 * 32). change 32768 with (32 * 32 * 32). change 1048576 with (32 * 32 * 32 * 32).
  change 33554432 with (32 * 32 * 32 * 32 * 32). change 1073741824 with (32 * 32 * 32 * 32 * 32 * 32).
  change 34359738368 with (32 * 32 * 32 * 32 * 32 * 32 * 32).
  rewrite <- !N.div_div by discriminate.
  assert (E : forall x, x = (x / 32) * 32 + x mod 32) by (intros x; lia).
  assert (H7 : V / 32 / 32 / 32 / 32 / 32 / 32 / 32 < 32).
  { rewrite !N.div_div by discriminate. apply N.div_lt_upper_bound; [discriminate|]. exact H. }
  rewrite (N.mod_small _ 32 H7). rewrite <- !E. reflexivity.
Qed.

Definition enc_block (in5 : bytes) : bytes := map n2b (digits 7 (b32_pack 8 in5)).
Lemma encode_block_eq in5 : b32_encode_block in5 = Some (enc_block in5).
Proof. unfold b32_encode_block, enc_block. apply emit_digits. lia. Qed.

Lemma divmod_pick V D M h q r : V = D * (M * h + q) + r -> r < D -> q < M -> (V / D) mod M = q.
Proof.
  intros -> Hr Hq. rewrite N.mul_comm, N.div_add_l by lia. rewrite (N.div_small r) by exact Hr.
  rewrite N.add_0_r, N.add_comm, N.mul_comm, N.mod_add by lia. apply N.mod_small. exact Hq.
Qed.
Lemma n2b_V5_bytes a b c d e :
  map (fun j => n2b (V5 a b c d e / 2 ^ (j * 8))) [4; 3; 2; 1; 0] = [a; b; c; d; e].
Proof.
  pose proof (b2n_lt a). pose proof (b2n_lt b). pose proof (b2n_lt c).
  pose proof (b2n_lt d). pose proof (b2n_lt e).
  cbn [map]. change (2 ^ (4 * 8)) with 4294967296. change (2 ^ (3 * 8)) with 16777216.
  change (2 ^ (2 * 8)) with 65536. change (2 ^ (1 * 8)) with 256. change (2 ^ (0 * 8)) with 1.
  repeat (apply (f_equal2 (@cons byte)); [apply b2n_inj; rewrite b2n_n2b; unfold V5|]); [..|reflexivity].
  - apply (divmod_pick _ _ _ 0 _ (((b2n b * 256 + b2n c) * 256 + b2n d) * 256 + b2n e)); lia.
  - apply (divmod_pick _ _ _ (b2n a) _ ((b2n c * 256 + b2n d) * 256 + b2n e)); lia.
  - apply (divmod_pick _ _ _ (b2n a * 256 + b2n b) _ (b2n d * 256 + b2n e)); lia.
  - apply (divmod_pick _ _ _ ((b2n a * 256 + b2n b) * 256 + b2n c) _ (b2n e)); lia.
  - apply (divmod_pick _ _ _ (((b2n a * 256 + b2n b) * 256 + b2n c) * 256 + b2n d) _ 0); lia.
Qed.

Lemma existsb_digits V : existsb (fun c => 32 <=? b2n c) (map n2b (digits 7 V)) = false.
Proof.
  pose proof (digits_lt 7 V) as H. induction H as [|q l Hq Hl IH]; [reflexivity|].
  cbn [map existsb]. rewrite IH, b2n_n2b_small by lia. destruct (32 <=? q) eqn:E; [lia|reflexivity].
Qed.

Lemma decode_enc_block a b c d e :
  b32_decode_block (enc_block [a; b; c; d; e]) = Some [a; b; c; d; e].
Proof.
  unfold b32_decode_block, enc_block. rewrite existsb_digits, pack5_V, digits7.
  rewrite pack8_V by (apply N.mod_upper_bound; lia).
  rewrite V8_digits by apply V5_lt. rewrite n2b_V5_bytes. reflexivity.
Qed.

(* encoded block: its eight quintets, in terms of the bytes *)
Lemma enc_block_quintets a b c d e :
  enc_block [a; b; c; d; e] = map n2b
    [ b2n a / 8; (b2n a mod 8) * 4 + b2n b / 64; (b2n b / 2) mod 32; (b2n b mod 2) * 16 + b2n c / 16;
      (b2n c mod 16) * 2 + b2n d / 128; (b2n d / 4) mod 32; (b2n d mod 4) * 8 + b2n e / 32; b2n e mod 32 ].
Proof.
  unfold enc_block. rewrite pack5_V, digits7. f_equal.
  pose proof (b2n_lt a). pose proof (b2n_lt b). pose proof (b2n_lt c).
  pose proof (b2n_lt d). pose proof (b2n_lt e). unfold V5.
  generalize dependent (b2n a). generalize dependent (b2n b). generalize dependent (b2n c).
  generalize dependent (b2n d). generalize dependent (b2n e). clear. intros e He d Hd c Hc b Hb a Ha.
  repeat (apply (f_equal2 (@cons N))); [..|reflexivity].
  - apply (divmod_pick _ _ _ 0 _ (((a mod 8 * 256 + b) * 256 + c) * 65536 + d * 256 + e)); lia.
  - apply (divmod_pick _ _ _ (a / 8) _ (((b mod 64) * 256 + c) * 65536 + d * 256 + e)); lia.
  - apply (divmod_pick _ _ _ (a * 4 + b / 64) _ (((b mod 2) * 256 + c) * 65536 + d * 256 + e)); lia.
  - apply (divmod_pick _ _ _ (a * 128 + b / 2) _ ((c mod 16) * 65536 + d * 256 + e)); lia.
  - apply (divmod_pick _ _ _ (a * 4096 + b * 16 + c / 16) _ ((d mod 128) * 256 + e)); lia.
  - apply (divmod_pick _ _ _ (a * 131072 + b * 512 + c * 2 + d / 128) _ ((d mod 4) * 256 + e)); lia.
  - apply (divmod_pick _ _ _ (a * 4194304 + b * 16384 + c * 64 + d / 4) _ (e mod 32)); lia.
  - rewrite <- (N.div_1_r (_ + e)).
    apply (divmod_pick _ _ _ ((((a * 256 + b) * 256 + c) * 256 + d) * 8 + e / 32) _ 0); lia.
Qed.

Local Open Scope nat_scope.
(* tail lengths *)
Definition elen (r : nat) : nat := match r with 0 => 0 | 1 => 2 | 2 => 4 | 3 => 5 | _ => 7 end.
Lemma elen_ok r : r < 5 -> b32_encode_length (N.of_nat r) = N.of_nat (elen r).
Proof. intros H. destruct r as [|[|[|[|[|r]]]]]; try reflexivity; lia. Qed.
Lemma dlen_elen r : r < 5 -> b32_decode_length (N.of_nat (elen r)) = N.of_nat r.
Proof. intros H. destruct r as [|[|[|[|[|r]]]]]; try reflexivity; lia. Qed.

Fixpoint encd (d : nat) (inp : bytes) : bytes :=
  match d with O => [] | S d' => enc_block (firstn 5 inp) ++ encd d' (skipn 5 inp) end.
Lemma enc_block_length in5 : length (enc_block in5) = 8.
Proof. unfold enc_block. rewrite map_length, digits7. reflexivity. Qed.
Lemma encd_length d inp : length (encd d inp) = 8 * d.
Proof. revert inp. induction d as [|d IH]; intros inp; cbn [encd]; [reflexivity|]. rewrite app_length, enc_block_length, IH. lia. Qed.

Lemma memread_nat s k : k <= length s -> memread s 0 (N.of_nat k) = Val (firstn k s).
Proof. intros H. rewrite memread_ok by (unfold blen; lia). unfold slice. rewrite Nat2N.id. reflexivity. Qed.

Lemma blocks_enc d inp : 5 * d <= length inp ->
  b32_blocks b32_encode_block 5 d inp = Val (encd d inp, skipn (5 * d) inp).
Proof.
  revert inp. induction d as [|d IH]; intros inp H; cbn [b32_blocks encd]; [reflexivity|].
  rewrite memread_nat by lia. cbn [rbind].
  rewrite encode_block_eq. cbn [lift rbind].
  rewrite IH by (rewrite skipn_length; lia). cbn [rbind fst snd].
  f_equal. f_equal. rewrite skipn_skipn. f_equal. lia.
Qed.

Definition tail_of (isz : nat) (inp : bytes) : bytes := skipn (isz * (length inp / isz)) inp.
Lemma tail_length isz inp : 0 < isz -> length (tail_of isz inp) = length inp mod isz.
Proof. intros H. unfold tail_of. rewrite skipn_length. pose proof (Nat.div_mod (length inp) isz). lia. Qed.

Definition enc_q (inp : bytes) : bytes :=
  encd (length inp / 5) inp ++
  firstn (elen (length inp mod 5)) (enc_block (tail_of 5 inp ++ repeat x00 (5 - length inp mod 5))).
Lemma elen_le r : r < 5 -> elen r <= 8.
Proof. intros H. destruct r as [|[|[|[|[|r]]]]]; cbn; lia. Qed.
Lemma enc_q_length inp : length (enc_q inp) = 8 * (length inp / 5) + elen (length inp mod 5).
Proof.
  unfold enc_q. rewrite app_length, encd_length, firstn_length, enc_block_length.
  pose proof (elen_le (length inp mod 5)). pose proof (Nat.mod_upper_bound (length inp) 5). lia.
Qed.
Lemma encode_length_enc_q inp : (blen inp < SIZE_MAX / 8)%N -> b32_encode_length (blen inp) = blen (enc_q inp).
Proof.
  intros H. unfold b32_encode_length. destruct (SIZE_MAX / 8 <=? blen inp)%N eqn:E; [lia|].
  unfold blen at 4. rewrite enc_q_length. unfold blen, two64, SIZE_MAX in *.
  change (18446744073709551615 / 8)%N with 2305843009213693951%N in H.
  rewrite (N.mod_small (_ * 8)) by lia.
  set (n := length inp) in *.
  pose proof (Nat.div_mod n 5). pose proof (Nat.mod_upper_bound n 5).
  set (q := n / 5) in *. set (r := n mod 5) in *.
  assert (En : n = 5 * q + r) by lia. rewrite En.
  assert (H5 : r < 5) by lia. clearbody q r n.
  destruct r as [|[|[|[|[|r]]]]]; cbn [elen]; try lia;
  destruct (0 <? (N.of_nat (5 * q + _) * 8) mod 5)%N eqn:F; lia.
Qed.

Lemma b32_code_enc inp out : blen out = blen (enc_q inp) ->
  b32_code b32_encode_block 5 b32_encode_length inp out = Val (enc_q inp).
Proof.
  intros HL. unfold b32_code.
  rewrite blocks_enc by (pose proof (Nat.div_mod (length inp) 5); lia). cbn [rbind fst snd].
  rewrite encode_block_eq. cbn [lift rbind].
  rewrite elen_ok by (apply Nat.mod_upper_bound; lia).
  rewrite memread_nat.
  2:{ rewrite enc_block_length. apply elen_le. apply Nat.mod_upper_bound. lia. }
  cbn [rbind]. fold (tail_of 5 inp). fold (enc_q inp).
  apply memwrite_all. exact HL.
Qed.

(* mapping to and from the alphabet *)
Definition quint (l : bytes) : Prop := Forall (fun c => (b2n c < 32)%N) l.
Lemma enc_block_quint in5 : quint (enc_block in5).
Proof.
  unfold enc_block, quint. pose proof (digits_lt 7 (b32_pack 8 in5)) as H.
  induction H as [|q l Hq Hl IH]; cbn [map]; constructor; [|exact IH].
  rewrite b2n_n2b_small by lia. exact Hq.
Qed.
Lemma quint_app a b : quint a -> quint b -> quint (a ++ b).
Proof. intros Ha Hb. apply Forall_app. auto. Qed.
Lemma quint_firstn n l : quint l -> quint (firstn n l).
Proof. intros H. rewrite <- (firstn_skipn n l) in H. apply Forall_app in H. apply H. Qed.
Lemma encd_quint d inp : quint (encd d inp).
Proof. revert inp. induction d as [|d IH]; intros inp; cbn [encd]; [constructor|]. apply quint_app; [apply enc_block_quint|apply IH]. Qed.
Lemma enc_q_quint inp : quint (enc_q inp).
Proof. apply quint_app; [apply encd_quint|apply quint_firstn, enc_block_quint]. Qed.

Definition b32_char (c : byte) : byte := nth (N.to_nat (b2n c)) b32_alphabet x00.
Lemma encode_map_quint l : quint l -> b32_encode_map l = Some (map b32_char l).
Proof.
  intros H. induction H as [|c l Hc Hl IH]; [reflexivity|].
  cbn [b32_encode_map map]. rewrite IH. destruct (32 <=? b2n c)%N eqn:E; [lia|]. reflexivity.
Qed.
Lemma rmap_char c : (b2n c < 32)%N -> b32_rmap (b32_char c) = b2n c.
Proof.
  intros H.
  assert (E : (if (b2n c <? 32)%N then (b32_rmap (b32_char c) =? b2n c)%N else true) = true).
  { clear H. revert c. apply byte_sweep. vm_compute. reflexivity. }
  destruct (b2n c <? 32)%N eqn:F; lia.
Qed.
Lemma unmap_quint l : quint l -> b32_unmap (map b32_char l) = Some l.
Proof.
  intros H. induction H as [|c l Hc Hl IH]; [reflexivity|].
  cbn [b32_unmap map]. rewrite IH, rmap_char by exact Hc.
  destruct (b2n c =? 255)%N eqn:E; [lia|]. rewrite n2b_b2n. reflexivity.
Qed.
(* the reverse map accepts exactly the alphabet *)
Lemma rmap_alphabet c : (b32_rmap c <> 255)%N <-> In c b32_alphabet.
Proof.
  assert (E : Bool.eqb (negb (b32_rmap c =? 255)%N) (existsb (Byte.eqb c) b32_alphabet) = true).
  { revert c. apply byte_sweep. vm_compute. reflexivity. }
  apply eqb_prop in E. split; intros H.
  - assert (X : existsb (Byte.eqb c) b32_alphabet = true).
    { rewrite <- E. destruct (N.eqb_spec (b32_rmap c) 255); [contradiction|reflexivity]. }
    apply existsb_exists in X. destruct X as (x & Hin & Hx). apply byte_eqb_spec in Hx. subst. exact Hin.
  - intros H255. rewrite H255, N.eqb_refl in E. cbn [negb] in E.
    assert (X : existsb (Byte.eqb c) b32_alphabet = true).
    { apply existsb_exists. exists c. split; [exact H|apply byte_eqb_refl]. }
    rewrite X in E. discriminate.
Qed.
Lemma rmap_lt c : (b32_rmap c <> 255)%N -> (b32_rmap c < 32)%N.
Proof.
  intros H.
  assert (E : ((b32_rmap c =? 255) || (b32_rmap c <? 32))%N = true).
  { clear H. revert c. apply byte_sweep. vm_compute. reflexivity. }
  lia.
Qed.
Lemma unmap_spec l u : b32_unmap l = Some u <-> (Forall (fun c => In c b32_alphabet) l /\ u = map (fun c => n2b (b32_rmap c)) l).
Proof.
  revert u. induction l as [|c l IH]; intros u; cbn [b32_unmap map].
  - split; [intros [= <-]; auto|intros [_ ->]; reflexivity].
  - destruct (b32_rmap c =? 255)%N eqn:E.
    + split; [discriminate|]. intros [H _]. inversion H as [|? ? Hc _]; subst.
      apply rmap_alphabet in Hc. lia.
    + assert (Hc : In c b32_alphabet) by (apply rmap_alphabet; lia).
      destruct (b32_unmap l) as [r|] eqn:El.
      * split.
        -- intros [= <-]. destruct (proj1 (IH r) eq_refl) as [Hf ->]. auto.
        -- intros [Hf ->]. inversion Hf; subst. f_equal. f_equal.
           pose proof (proj2 (IH _) (conj H2 eq_refl)) as X. congruence.
      * split; [discriminate|]. intros [Hf ->]. inversion Hf; subst.
        pose proof (proj2 (IH _) (conj H2 eq_refl)) as X. discriminate.
Qed.
Lemma unmap_quint_out l u : b32_unmap l = Some u -> quint u.
Proof.
  intros H. apply unmap_spec in H. destruct H as [Hf ->]. induction Hf as [|c l Hc Hl IH]; cbn [map]; constructor; [|exact IH].
  apply rmap_alphabet in Hc. pose proof (rmap_lt c Hc). rewrite b2n_n2b_small by lia. assumption.
Qed.

(* encoder *)
Lemma base32_encode_val d : (0 < blen d)%N -> (blen d < SIZE_MAX / 8)%N ->
  size_ok (blen (enc_q d)) = true -> base32_encode (Some d) = Val (map b32_char (enc_q d)).
Proof.
  intros H0 Hmax Hok. unfold base32_encode, buffer_create_empty_zero.
  rewrite encode_length_enc_q by assumption.
  destruct (proj2 (create_empty_ok (fun _ => x00) _) Hok) as [nb Hnb]. rewrite Hnb. cbn [lift rbind].
  apply create_empty_length in Hnb. rewrite b32_code_enc by assumption. cbn [rbind].
  rewrite encode_map_quint by apply enc_q_quint. reflexivity.
Qed.
Lemma base32_encode_null d : size_ok (b32_encode_length (blen d)) = false -> base32_encode (Some d) = Null.
Proof. intros H. unfold base32_encode, buffer_create_empty_zero. rewrite create_empty_none by assumption. reflexivity. Qed.

(* decoder on arbitrary quintets *)
Definition dec_block (in8 : bytes) : bytes := map (fun j => n2b (b32_pack 5 in8 / 2 ^ (j * 8))) [4; 3; 2; 1; 0]%N.
Lemma decode_block_quint l : quint l -> b32_decode_block l = Some (dec_block l).
Proof.
  intros H. unfold b32_decode_block.
  assert (E : existsb (fun c => (32 <=? b2n c)%N) l = false).
  { induction H as [|c l Hc Hl IH]; [reflexivity|]. cbn [existsb]. rewrite IH.
    destruct (32 <=? b2n c)%N eqn:F; [lia|reflexivity]. }
  rewrite E. reflexivity.
Qed.
Fixpoint decd (d : nat) (inp : bytes) : bytes :=
  match d with O => [] | S d' => dec_block (firstn 8 inp) ++ decd d' (skipn 8 inp) end.
Lemma decd_length d inp : length (decd d inp) = 5 * d.
Proof. revert inp. induction d as [|d IH]; intros inp; cbn [decd]; [reflexivity|]. rewrite app_length, IH. cbn. lia. Qed.
Lemma quint_skipn n l : quint l -> quint (skipn n l).
Proof. intros H. rewrite <- (firstn_skipn n l) in H. apply Forall_app in H. apply H. Qed.
Lemma blocks_dec d inp : quint inp -> 8 * d <= length inp ->
  b32_blocks b32_decode_block 8 d inp = Val (decd d inp, skipn (8 * d) inp).
Proof.
  revert inp. induction d as [|d IH]; intros inp Hq H; cbn [b32_blocks decd]; [reflexivity|].
  rewrite memread_nat by lia. cbn [rbind].
  rewrite decode_block_quint by (apply quint_firstn; assumption). cbn [lift rbind].
  rewrite IH by (try apply quint_skipn; try assumption; rewrite skipn_length; lia). cbn [rbind fst snd].
  f_equal. f_equal. rewrite skipn_skipn. f_equal. lia.
Qed.
Definition dlen (r : nat) : nat := r * 5 / 8.
Lemma dlen_ok r : r < 8 -> b32_decode_length (N.of_nat r) = N.of_nat (dlen r).
Proof.
  intros H. do 8 (destruct r as [|r]; [reflexivity|]). lia.
Qed.
Definition dec_q (inp : bytes) : bytes :=
  decd (length inp / 8) inp ++
  firstn (dlen (length inp mod 8)) (dec_block (tail_of 8 inp ++ repeat x00 (8 - length inp mod 8))).
Lemma repeat0_quint n : quint (repeat x00 n).
Proof. induction n; cbn; constructor; [reflexivity|assumption]. Qed.
Lemma dlen_le r : r < 8 -> dlen r <= 5.
Proof. unfold dlen. intros H. lia. Qed.
Lemma dec_q_length inp : length (dec_q inp) = 5 * (length inp / 8) + dlen (length inp mod 8).
Proof.
  unfold dec_q. rewrite app_length, decd_length, firstn_length.
  pose proof (dlen_le (length inp mod 8)). pose proof (Nat.mod_upper_bound (length inp) 8).
  cbn [length dec_block map]. lia.
Qed.
Lemma decode_length_dec_q inp : (blen inp < SIZE_MAX / 5)%N -> b32_decode_length (blen inp) = blen (dec_q inp).
Proof.
  intros H. unfold b32_decode_length. destruct (SIZE_MAX / 5 <=? blen inp)%N eqn:E; [lia|].
  change (blen (dec_q inp)) with (N.of_nat (length (dec_q inp))). rewrite dec_q_length. unfold blen, two64, SIZE_MAX, dlen in *.
  change (18446744073709551615 / 5)%N with 3689348814741910323%N in H.
  rewrite (N.mod_small (_ * 5)) by lia. lia.
Qed.
Lemma b32_code_dec inp out : quint inp -> (blen (dec_q inp) <= blen out)%N ->
  exists z, b32_code b32_decode_block 8 b32_decode_length inp out = Val (dec_q inp ++ z).
Proof.
  intros Hq HL. unfold b32_code.
  rewrite blocks_dec by (assumption || (pose proof (Nat.div_mod (length inp) 8); lia)). cbn [rbind fst snd].
  rewrite decode_block_quint by (apply quint_app; [apply quint_skipn; assumption|apply repeat0_quint]).
  cbn [lift rbind].
  rewrite dlen_ok by (apply Nat.mod_upper_bound; lia).
  rewrite memread_nat.
  2:{ cbn [length dec_block map]. apply dlen_le. apply Nat.mod_upper_bound. lia. }
  cbn [rbind]. fold (tail_of 8 inp). fold (dec_q inp).
  unfold memwrite. rewrite memread_all. cbn [rbind].
  destruct (0 + blen (dec_q inp) <=? blen out)%N eqn:E; [|lia].
  change (N.to_nat 0) with 0. cbn [firstn app]. eauto.
Qed.

Lemma base32_decode_eq t : base32_decode (Some t) =
  match buffer_create t with
  | None => Null
  | Some _ => match b32_unmap t with
              | None => Null
              | Some u => if (blen (dec_q u) =? 0)%N then Null else Val (dec_q u)
              end
  end.
Proof.
  unfold base32_decode, buffer_copy. destruct (buffer_create t) as [c|] eqn:Ec; [|reflexivity].
  apply buffer_create_Some in Ec. destruct Ec as [-> Hok]. cbn [lift rbind].
  destruct (b32_unmap t) as [u|] eqn:Eu; [|reflexivity]. cbn [lift rbind].
  assert (Hlen : blen u = blen t).
  { apply unmap_spec in Eu. destruct Eu as [_ ->]. unfold blen. rewrite map_length. reflexivity. }
  assert (Hmax : (blen u < SIZE_MAX / 5)%N).
  { rewrite Hlen. unfold size_ok, MAX_BUFFER_SIZE in Hok. unfold SIZE_MAX.
    change (18446744073709551615 / 5)%N with 3689348814741910323%N. lia. }
  rewrite decode_length_dec_q by assumption.
  destruct (blen (dec_q u) =? 0)%N eqn:E0; [reflexivity|].
  assert (Hd : (blen (dec_q u) <= blen u)%N).
  { unfold blen. rewrite dec_q_length. unfold dlen. lia. }
  assert (Hw : wadd64 (blen (dec_q u)) 1 = (blen (dec_q u) + 1)%N).
  { unfold wadd64, two64, size_ok, MAX_BUFFER_SIZE in *. lia. }
  rewrite Hw. unfold buffer_create_empty_zero.
  assert (Hok2 : size_ok (blen (dec_q u) + 1) = true).
  { assert (Hd2 : (0 < blen u)%N -> (blen (dec_q u) < blen u)%N).
    { unfold blen. rewrite dec_q_length. unfold dlen. lia. }
    unfold size_ok, MAX_BUFFER_SIZE in *. lia. }
  destruct (proj2 (create_empty_ok (fun _ => x00) _) Hok2) as [nb Hnb]. rewrite Hnb. cbn [lift rbind].
  apply create_empty_length in Hnb.
  destruct (b32_code_dec u nb) as [z Hz]; [eapply unmap_quint_out; eassumption|lia|].
  rewrite Hz. cbn [rbind]. unfold blen. rewrite Nat2N.id.
  rewrite firstn_app, Nat.sub_diag, firstn_all. cbn [firstn]. rewrite app_nil_r. reflexivity.
Qed.

(* round trip on quintets *)
Lemma split5 (l : bytes) : 5 <= length l -> exists a b c d e r, l = a :: b :: c :: d :: e :: r.
Proof. intros H. destruct l as [|a [|b [|c [|d [|e r]]]]]; cbn in H; try lia. do 6 eexists. reflexivity. Qed.
Lemma dec_enc_block a b c d e : dec_block (enc_block [a; b; c; d; e]) = [a; b; c; d; e].
Proof.
  pose proof (decode_enc_block a b c d e) as H. rewrite decode_block_quint in H by apply enc_block_quint.
  apply Some_inj in H. exact H.
Qed.
Lemma decd_encd d inp rest : 5 * d <= length inp -> decd d (encd d inp ++ rest) = firstn (5 * d) inp.
Proof.
  revert inp. induction d as [|d IH]; intros inp H; [reflexivity|].
  destruct (split5 inp) as (x0 & x1 & x2 & x3 & x4 & r & ->); [lia|].
  cbn [encd decd]. rewrite <- app_assoc.
  rewrite firstn_app_l by apply enc_block_length. rewrite skipn_app_l by apply enc_block_length.
  cbn [firstn skipn]. rewrite dec_enc_block. rewrite IH by (cbn [length] in H; lia).
  replace (5 * S d) with (5 + 5 * d) by lia. reflexivity.
Qed.
Lemma enc_block_tail t : length t < 5 ->
  enc_block (t ++ repeat x00 (5 - length t)) =
  firstn (elen (length t)) (enc_block (t ++ repeat x00 (5 - length t))) ++ repeat x00 (8 - elen (length t)).
Proof.
  intros H. rewrite <- (firstn_skipn (elen (length t)) (enc_block (t ++ repeat x00 (5 - length t)))) at 1. f_equal.
  destruct t as [|a [|b [|c [|d [|e t]]]]]; cbn [length] in H; try lia; cbn [app repeat Nat.sub length elen];
    rewrite enc_block_quintets; change (b2n x00) with 0%N; cbn [map skipn].
  all: repeat f_equal.
  all: apply b2n_inj; rewrite b2n_n2b; change (b2n x00) with 0%N;
    repeat match goal with |- context [b2n ?x] => pose proof (b2n_lt x); generalize dependent (b2n x); intros end; lia.
Qed.
Lemma dec_enc_q d : dec_q (enc_q d) = d.
Proof.
  unfold dec_q. rewrite enc_q_length.
  set (q := length d / 5). set (r := length d mod 5).
  assert (Hr : r < 5) by (apply Nat.mod_upper_bound; lia).
  assert (He : elen r < 8) by (destruct r as [|[|[|[|[|r']]]]]; cbn; lia).
  replace ((8 * q + elen r) / 8) with q by lia.
  replace ((8 * q + elen r) mod 8) with (elen r) by lia.
  unfold enc_q at 1. fold q r. rewrite decd_encd by (unfold q; lia).
  assert (Et : tail_of 8 (enc_q d) = firstn (elen r) (enc_block (tail_of 5 d ++ repeat x00 (5 - r)))).
  { unfold tail_of at 1. rewrite enc_q_length. fold q r.
    replace ((8 * q + elen r) / 8) with q by lia.
    unfold enc_q. fold q r. rewrite <- (encd_length q d). rewrite skipn_app, skipn_all, Nat.sub_diag. reflexivity. }
  rewrite Et.
  assert (Hlt : length (tail_of 5 d) = r) by (apply tail_length; lia).
  assert (HH : length (tail_of 5 d) < 5) by lia.
  pose proof (enc_block_tail (tail_of 5 d) HH) as X. rewrite Hlt in X. rewrite <- X.
  assert (Ed : dec_block (enc_block (tail_of 5 d ++ repeat x00 (5 - r))) = tail_of 5 d ++ repeat x00 (5 - r)).
  { destruct (tail_of 5 d) as [|a [|b [|c [|e [|f t]]]]]; cbn [length] in Hlt; subst r; try lia;
      rewrite <- Hlt; cbn [app repeat Nat.sub]; apply dec_enc_block. }
  rewrite Ed.
  assert (Edl : dlen (elen r) = r) by (destruct r as [|[|[|[|[|r']]]]]; try reflexivity; lia).
  rewrite Edl. rewrite <- Hlt at 1. rewrite firstn_app, Nat.sub_diag, firstn_all. cbn [firstn]. rewrite app_nil_r.
  unfold tail_of. fold q. apply firstn_skipn.
Qed.

Lemma base32_roundtrip d t : (0 < blen d)%N -> (blen d < 2 ^ 61)%N ->
  base32_encode (Some d) = Val t -> base32_decode (Some t) = Val d.
Proof.
  intros H0 H61 He.
  assert (Hmax : (blen d < SIZE_MAX / 8)%N \/ (blen d = SIZE_MAX / 8)%N).
  { unfold SIZE_MAX. change (18446744073709551615 / 8)%N with 2305843009213693951%N.
    change (2 ^ 61)%N with 2305843009213693952%N in H61. lia. }
  destruct Hmax as [Hmax|Heq].
  2:{ unfold base32_encode, buffer_create_empty_zero, b32_encode_length in He.
      rewrite Heq in He. rewrite N.leb_refl in He. discriminate. }
  destruct (size_ok (blen (enc_q d))) eqn:Hok.
  2:{ rewrite base32_encode_null in He; [discriminate|]. rewrite encode_length_enc_q by assumption. exact Hok. }
  rewrite base32_encode_val in He by assumption. injection He as <-.
  rewrite base32_decode_eq.
  assert (Hl : blen (map b32_char (enc_q d)) = blen (enc_q d)) by (unfold blen; rewrite map_length; reflexivity).
  rewrite buffer_create_ok by (rewrite Hl; exact Hok).
  rewrite unmap_quint by apply enc_q_quint. rewrite dec_enc_q.
  destruct (blen d =? 0)%N eqn:E; [lia|reflexivity].
Qed.

(* conformance *)
Local Notation tb a i := (N.testbit (b2n a) i).
Local Notation S32 := (sel crockford_alphabet).
Lemma q0_spec a : b32_char (n2b (b2n a / 8)) = S32 [tb a 7; tb a 6; tb a 5; tb a 4; tb a 3].
Proof. revert a. apply byte_sweep_eq. vm_compute. reflexivity. Qed.
Lemma q1_spec a b : b32_char (n2b ((b2n a mod 8) * 4 + b2n b / 64)) = S32 [tb a 2; tb a 1; tb a 0; tb b 7; tb b 6].
Proof. revert a b. apply byte_sweep2_eq. vm_compute. reflexivity. Qed.
Lemma q2_spec b : b32_char (n2b ((b2n b / 2) mod 32)) = S32 [tb b 5; tb b 4; tb b 3; tb b 2; tb b 1].
Proof. revert b. apply byte_sweep_eq. vm_compute. reflexivity. Qed.
Lemma q3_spec b c : b32_char (n2b ((b2n b mod 2) * 16 + b2n c / 16)) = S32 [tb b 0; tb c 7; tb c 6; tb c 5; tb c 4].
Proof. revert b c. apply byte_sweep2_eq. vm_compute. reflexivity. Qed.
Lemma q4_spec c d : b32_char (n2b ((b2n c mod 16) * 2 + b2n d / 128)) = S32 [tb c 3; tb c 2; tb c 1; tb c 0; tb d 7].
Proof. revert c d. apply byte_sweep2_eq. vm_compute. reflexivity. Qed.
Lemma q5_spec d : b32_char (n2b ((b2n d / 4) mod 32)) = S32 [tb d 6; tb d 5; tb d 4; tb d 3; tb d 2].
Proof. revert d. apply byte_sweep_eq. vm_compute. reflexivity. Qed.
Lemma q6_spec d e : b32_char (n2b ((b2n d mod 4) * 8 + b2n e / 32)) = S32 [tb d 1; tb d 0; tb e 7; tb e 6; tb e 5].
Proof. revert d e. apply byte_sweep2_eq. vm_compute. reflexivity. Qed.
Lemma q7_spec e : b32_char (n2b (b2n e mod 32)) = S32 [tb e 4; tb e 3; tb e 2; tb e 1; tb e 0].
Proof. revert e. apply byte_sweep_eq. vm_compute. reflexivity. Qed.

Lemma enc_block_chars a b c d e : map b32_char (enc_block [a; b; c; d; e]) =
  [ S32 [tb a 7; tb a 6; tb a 5; tb a 4; tb a 3]; S32 [tb a 2; tb a 1; tb a 0; tb b 7; tb b 6];
    S32 [tb b 5; tb b 4; tb b 3; tb b 2; tb b 1]; S32 [tb b 0; tb c 7; tb c 6; tb c 5; tb c 4];
    S32 [tb c 3; tb c 2; tb c 1; tb c 0; tb d 7]; S32 [tb d 6; tb d 5; tb d 4; tb d 3; tb d 2];
    S32 [tb d 1; tb d 0; tb e 7; tb e 6; tb e 5]; S32 [tb e 4; tb e 3; tb e 2; tb e 1; tb e 0] ].
Proof.
  rewrite enc_block_quintets. cbn [map].
  rewrite q0_spec, q1_spec, q2_spec, q3_spec, q4_spec, q5_spec, q6_spec, q7_spec. reflexivity.
Qed.
Lemma spec32_block a b c d e l : spec_chars crockford_alphabet 5 (a :: b :: c :: d :: e :: l) =
  map b32_char (enc_block [a; b; c; d; e]) ++ spec_chars crockford_alphabet 5 l.
Proof.
  rewrite enc_block_chars. rewrite !spec_chars_eq.
  assert (E : bits (a :: b :: c :: d :: e :: l) =
   [tb a 7; tb a 6; tb a 5; tb a 4; tb a 3] ++ [tb a 2; tb a 1; tb a 0; tb b 7; tb b 6] ++
    [tb b 5; tb b 4; tb b 3; tb b 2; tb b 1] ++ [tb b 0; tb c 7; tb c 6; tb c 5; tb c 4] ++
    [tb c 3; tb c 2; tb c 1; tb c 0; tb d 7] ++ [tb d 6; tb d 5; tb d 4; tb d 3; tb d 2] ++
    [tb d 1; tb d 0; tb e 7; tb e 6; tb e 5] ++ [tb e 4; tb e 3; tb e 2; tb e 1; tb e 0] ++ bits l) by reflexivity.
  rewrite E. clear E.
  do 8 (rewrite groups_step by (try reflexivity; lia)). reflexivity.
Qed.
Lemma spec32_tail t : length t < 5 -> spec_chars crockford_alphabet 5 t =
  map b32_char (firstn (elen (length t)) (enc_block (t ++ repeat x00 (5 - length t)))).
Proof.
  intros H. rewrite <- firstn_map.
  destruct t as [|a [|b [|c [|d [|e t]]]]]; cbn [length] in H; try lia; cbn [app repeat Nat.sub length elen].
  - reflexivity.
  - rewrite enc_block_chars. reflexivity.
  - rewrite enc_block_chars. reflexivity.
  - rewrite enc_block_chars. reflexivity.
  - rewrite enc_block_chars. reflexivity.
Qed.
Lemma enc_q_spec d : map b32_char (enc_q d) = spec_base32 d.
Proof.
  unfold enc_q, spec_base32. remember (length d / 5) as q eqn:Eq. revert d Eq.
  induction q as [|q IH]; intros d Eq.
  - assert (length d < 5) by lia. cbn [encd app].
    replace (length d mod 5) with (length d) by lia.
    unfold tail_of. rewrite <- Eq. cbn [skipn Nat.mul]. symmetry. apply spec32_tail. assumption.
  - destruct (split5 d) as (a & b & c & d1 & e & r & ->); [lia|].
    cbn [encd firstn skipn]. rewrite spec32_block, <- app_assoc, map_app. f_equal.
    cbn [length] in Eq |- *.
    assert (Eq' : q = length r / 5) by lia.
    rewrite <- (IH r Eq').
    replace (S (S (S (S (S (length r))))) mod 5) with (length r mod 5) by lia.
    do 3 f_equal. f_equal. f_equal.
    unfold tail_of. cbn [length]. rewrite <- Eq', <- Eq.
    replace (5 * S q) with (5 + 5 * q) by lia. reflexivity.
Qed.
