(* Lemmas about Base/Bytes.v *)
From Verif.Base Require Import Bytes.
From Coq Require Import ZifyBool ZifyNat ZifyN.
Ltac Zify.zify_post_hook ::= Z.div_mod_to_equations.

Lemma b2n_lt b : (b2n b < 256)%N.
Proof. unfold b2n. pose proof (Byte.to_N_bounded b). lia. Qed.

Lemma n2b_b2n b : n2b (b2n b) = b.
Proof.
  unfold n2b, b2n. rewrite N.mod_small by (pose proof (Byte.to_N_bounded b); lia).
  rewrite Byte.of_to_N. reflexivity.
Qed.

Lemma b2n_n2b n : b2n (n2b n) = (n mod 256)%N.
Proof.
  unfold n2b, b2n.
  destruct (Byte.of_N (n mod 256)) as [b|] eqn:E.
  - apply Byte.to_of_N in E. exact E.
  - apply Byte.of_N_None_iff in E. pose proof (N.mod_upper_bound n 256). lia.
Qed.

Lemma b2n_n2b_small n : (n < 256)%N -> b2n (n2b n) = n.
Proof. intros H. rewrite b2n_n2b. apply N.mod_small. exact H. Qed.

Lemma b2n_inj a b : b2n a = b2n b -> a = b.
Proof. intros H. rewrite <- (n2b_b2n a), <- (n2b_b2n b), H. reflexivity. Qed.

Lemma n2b_inj a b : (a < 256)%N -> (b < 256)%N -> n2b a = n2b b -> a = b.
Proof.
  intros Ha Hb H. rewrite <- (b2n_n2b_small a Ha), <- (b2n_n2b_small b Hb), H. reflexivity.
Qed.

Lemma n2b_mod n : n2b (n mod 256) = n2b n.
Proof. unfold n2b. rewrite N.mod_mod by lia. reflexivity. Qed.

(* every byte is one of 256: a boolean sweep decides a property of all bytes *)
Definition all_bytes : list byte := map n2b (map N.of_nat (seq 0 256)).
Lemma all_bytes_complete b : In b all_bytes.
Proof.
  unfold all_bytes. rewrite map_map.
  apply in_map_iff. exists (N.to_nat (b2n b)). split.
  - rewrite N2Nat.id. apply n2b_b2n.
  - apply in_seq. pose proof (b2n_lt b). lia.
Qed.
Lemma byte_sweep (P : byte -> bool) : forallb P all_bytes = true -> forall b, P b = true.
Proof. intros H b. rewrite forallb_forall in H. apply H, all_bytes_complete. Qed.

Lemma byte_sweep2 (P : byte -> byte -> bool) :
  forallb (fun a => forallb (P a) all_bytes) all_bytes = true -> forall a b, P a b = true.
Proof.
  intros H a b. rewrite forallb_forall in H. specialize (H a (all_bytes_complete a)).
  rewrite forallb_forall in H. apply H, all_bytes_complete.
Qed.

(* the numbers below a bound, for sweeps *)
Definition upto (n : nat) : list N := map N.of_nat (seq 0 n).
Lemma in_upto n x : (x < N.of_nat n)%N -> In x (upto n).
Proof.
  intros H. unfold upto. apply in_map_iff. exists (N.to_nat x). split; [lia|].
  apply in_seq. lia.
Qed.
Lemma sweep (n : nat) (P : N -> bool) :
  forallb P (upto n) = true -> forall x, (x < N.of_nat n)%N -> P x = true.
Proof. intros H x Hx. rewrite forallb_forall in H. apply H, in_upto, Hx. Qed.

Lemma byte_eqb_spec a b : Byte.eqb a b = true <-> a = b.
Proof.
  split.
  - apply Byte.byte_dec_bl.
  - apply Byte.byte_dec_lb.
Qed.
Lemma byte_eqb_refl a : Byte.eqb a a = true.
Proof. apply byte_eqb_spec. reflexivity. Qed.

Lemma byte_sweep_eq (f g : byte -> byte) :
  forallb (fun a => Byte.eqb (f a) (g a)) all_bytes = true -> forall a, f a = g a.
Proof. intros H a. apply byte_eqb_spec. exact (byte_sweep _ H a). Qed.
Lemma byte_sweep2_eq (f g : byte -> byte -> byte) :
  forallb (fun a => forallb (fun b => Byte.eqb (f a b) (g a b)) all_bytes) all_bytes = true ->
  forall a b, f a b = g a b.
Proof. intros H a b. apply byte_eqb_spec. exact (byte_sweep2 _ H a b). Qed.
Lemma byte_sweep_Neq (f g : byte -> N) :
  forallb (fun a => N.eqb (f a) (g a)) all_bytes = true -> forall a, f a = g a.
Proof. intros H a. apply N.eqb_eq. exact (byte_sweep _ H a). Qed.
Lemma byte_sweep2_Neq (f g : byte -> byte -> N) :
  forallb (fun a => forallb (fun b => N.eqb (f a b) (g a b)) all_bytes) all_bytes = true ->
  forall a b, f a b = g a b.
Proof. intros H a b. apply N.eqb_eq. exact (byte_sweep2 _ H a b). Qed.

Lemma beqb_spec a b : beqb a b = true <-> a = b.
Proof.
  revert b. induction a as [|x a IH]; intros [|y b]; cbn [beqb]; split; intros H;
    try reflexivity; try discriminate.
  - apply andb_true_iff in H. destruct H as [H1 H2].
    apply byte_eqb_spec in H1. apply IH in H2. congruence.
  - injection H as -> ->. rewrite byte_eqb_refl. apply IH. reflexivity.
Qed.
Lemma beqb_refl a : beqb a a = true.
Proof. apply beqb_spec. reflexivity. Qed.
Lemma beqb_sym a b : beqb a b = beqb b a.
Proof.
  destruct (beqb a b) eqn:E, (beqb b a) eqn:F; try reflexivity.
  - apply beqb_spec in E. subst. rewrite beqb_refl in F. discriminate.
  - apply beqb_spec in F. subst. rewrite beqb_refl in E. discriminate.
Qed.
Lemma beqb_false a b : beqb a b = false <-> a <> b.
Proof.
  split; intros H.
  - intros ->. rewrite beqb_refl in H. discriminate.
  - destruct (beqb a b) eqn:E; [|reflexivity]. apply beqb_spec in E. contradiction.
Qed.
Lemma bytes_eq_dec (a b : bytes) : {a = b} + {a <> b}.
Proof. destruct (beqb a b) eqn:E; [left; apply beqb_spec|right; apply beqb_false]; exact E. Qed.

(* lengths *)
Lemma blen_app a b : blen (a ++ b) = (blen a + blen b)%N.
Proof. unfold blen. rewrite app_length. lia. Qed.
Lemma blen_cons x a : blen (x :: a) = (1 + blen a)%N.
Proof. unfold blen. cbn [length]. lia. Qed.
Lemma blen_nil : blen [] = 0%N.
Proof. reflexivity. Qed.
Lemma blen_0 a : blen a = 0%N -> a = [].
Proof. destruct a; [reflexivity|]. rewrite blen_cons. lia. Qed.

(* slices *)
Lemma slice_length {A} (l : list A) s n : length (slice l s n) = Nat.min n (length l - s).
Proof. unfold slice. rewrite firstn_length, skipn_length. reflexivity. Qed.
Lemma slice_length_ok {A} (l : list A) s n : s + n <= length l -> length (slice l s n) = n.
Proof. intros H. rewrite slice_length. lia. Qed.
Lemma slice_all {A} (l : list A) : slice l 0 (length l) = l.
Proof. unfold slice. cbn [skipn]. apply firstn_all. Qed.
Lemma slice_app_mid {A} (a m z : list A) : slice (a ++ m ++ z) (length a) (length m) = m.
Proof.
  unfold slice. rewrite skipn_app, Nat.sub_diag, skipn_all2 by lia. cbn [skipn app].
  rewrite firstn_app, Nat.sub_diag, firstn_all. cbn [firstn]. apply app_nil_r.
Qed.
Lemma slice_app_l {A} (a z : list A) : slice (a ++ z) 0 (length a) = a.
Proof. apply (slice_app_mid [] a z). Qed.
Lemma slice_app_r {A} (a z : list A) : slice (a ++ z) (length a) (length z) = z.
Proof. pose proof (slice_app_mid a z []) as H. rewrite app_nil_r in H. exact H. Qed.
Lemma slice_split {A} (l : list A) (i : nat) : i <= length l ->
  l = slice l 0 i ++ slice l i (length l - i).
Proof.
  intros H. unfold slice. cbn [skipn].
  rewrite <- (firstn_skipn i l) at 1. f_equal.
  rewrite firstn_all2; [reflexivity|]. rewrite skipn_length. lia.
Qed.
Lemma nth_slice {A} (l : list A) s n i : i < n -> nth_error (slice l s n) i = nth_error l (s + i).
Proof.
  unfold slice. revert l n i. induction s as [|s IH]; intros l n i H; cbn [skipn].
  - rewrite Nat.add_0_l. revert l i H. induction n as [|n IHn]; intros l i H; [lia|].
    destruct l as [|x l]; cbn [firstn]; [destruct i; reflexivity|].
    destruct i as [|i]; cbn [nth_error]; [reflexivity|]. apply IHn. lia.
  - destruct l as [|x l].
    + rewrite firstn_nil. destruct i; reflexivity.
    + cbn [Nat.add nth_error]. apply IH. exact H.
Qed.

(* little endian *)
Lemma le_enc_length k n : length (le_enc k n) = k.
Proof. revert n. induction k as [|k IH]; intros n; cbn [le_enc length]; [reflexivity|]. rewrite IH. reflexivity. Qed.
Lemma le_dec_enc k n : (n < 256 ^ N.of_nat k)%N -> le_dec (le_enc k n) = n.
Proof.
  revert n. induction k as [|k IH]; intros n H; cbn [le_enc le_dec].
  - change (N.of_nat 0) with 0%N in H. rewrite N.pow_0_r in H. lia.
  - rewrite Nat2N.inj_succ, N.pow_succ_r' in H.
    rewrite b2n_n2b, IH.
    + pose proof (N.div_mod n 256). lia.
    + apply N.div_lt_upper_bound; lia.
Qed.
Lemma le_enc_dec l : le_enc (length l) (le_dec l) = l.
Proof.
  induction l as [|b l IH]; cbn [length le_dec le_enc]; [reflexivity|].
  f_equal.
  - apply b2n_inj. rewrite b2n_n2b. pose proof (b2n_lt b).
    rewrite N.mul_comm, N.mod_add by lia. apply N.mod_small. exact H.
  - replace ((b2n b + 256 * le_dec l) / 256)%N with (le_dec l); [exact IH|].
    pose proof (b2n_lt b). rewrite N.mul_comm, N.div_add by lia. rewrite N.div_small by exact H. lia.
Qed.
Lemma le_dec_lt l : (le_dec l < 256 ^ blen l)%N.
Proof.
  induction l as [|b l IH]; cbn [le_dec].
  - rewrite blen_nil, N.pow_0_r. lia.
  - rewrite blen_cons, N.add_1_l, N.pow_succ_r'. pose proof (b2n_lt b). lia.
Qed.
Lemma le_enc_inj k a b : (a < 256 ^ N.of_nat k)%N -> (b < 256 ^ N.of_nat k)%N ->
  le_enc k a = le_enc k b -> a = b.
Proof. intros Ha Hb H. rewrite <- (le_dec_enc k a Ha), <- (le_dec_enc k b Hb), H. reflexivity. Qed.
Lemma le64_dec_enc n : (n < two64)%N -> le_dec (le_enc 8 n) = n.
Proof. intros H. apply le_dec_enc. exact H. Qed.

Lemma rd_ok b i : i < length b -> exists x, rd b i = Val x.
Proof.
  intros H. unfold rd. destruct (nth_error b i) as [x|] eqn:E; [exists x; reflexivity|].
  apply nth_error_None in E. lia.
Qed.
Lemma rd_0 x b : rd (x :: b) 0 = Val x.
Proof. reflexivity. Qed.

Lemma lift_Val {A} (o : option A) a : lift o = Val a <-> o = Some a.
Proof. destruct o; cbn; split; intros H; congruence. Qed.
Lemma lift_notUB {A} (o : option A) : lift o <> UB.
Proof. destruct o; discriminate. Qed.

(* case analysis on the outermost conditional or match of a hypothesis *)
Ltac dcase H :=
  match type of H with
  | context [if ?c then _ else _] => let E := fresh "E" in destruct c eqn:E
  | context [match ?c with _ => _ end] => let E := fresh "E" in destruct c eqn:E
  end.
Lemma skipn_skipn {A} (x y : nat) (l : list A) : skipn x (skipn y l) = skipn (x + y) l.
Proof.
  revert l. induction y as [|y IH]; intros l; [rewrite Nat.add_0_r; reflexivity|].
  rewrite Nat.add_succ_r. destruct l as [|a l]; [rewrite !skipn_nil; reflexivity|]. cbn [skipn]. apply IH.
Qed.
Lemma Some_inj {A} (a b : A) : Some a = Some b -> a = b.
Proof. intros H. exact (f_equal (fun o => match o with Some x => x | None => a end) H). Qed.
Lemma Val_inj {A} (a b : A) : Val a = Val b -> a = b.
Proof. intros H. exact (f_equal (fun o => match o with Val x => x | _ => a end) H). Qed.
Lemma firstn_app_l {A} n (a b : list A) : length a = n -> firstn n (a ++ b) = a.
Proof. intros <-. rewrite firstn_app, Nat.sub_diag, firstn_all. apply app_nil_r. Qed.
Lemma skipn_app_l {A} n (a b : list A) : length a = n -> skipn n (a ++ b) = b.
Proof. intros <-. rewrite skipn_app, Nat.sub_diag, skipn_all. reflexivity. Qed.
