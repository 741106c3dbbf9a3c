(* Base64 and hex: conformance to the specification, round trips, memory safety *)
From Verif.Base Require Import Bytes.
From Verif.Model Require Import Buffer CString Base64 Hex.
From Verif.Spec Require Import TextSpec.
From Verif.Proofs Require Import BytesFacts BufferFacts.
From Coq Require Import ZifyBool ZifyNat ZifyN.
Ltac Zify.zify_post_hook ::= Z.div_mod_to_equations.

(* ---------------- groups ---------------- *)
Lemma groups_nil f k : groups f k [] = [].
Proof. destruct f; reflexivity. Qed.
Lemma groups_fuel k l f f' : 0 < k -> length l <= f -> length l <= f' -> groups f k l = groups f' k l.
Proof.
  intros Hk. revert f f'. remember (length l) as n eqn:En.
  revert l En. induction n as [n IH] using lt_wf_ind. intros l En f f' Hf Hf'.
  destruct l as [|x l]; [rewrite !groups_nil; reflexivity|].
  destruct f as [|f]; [cbn in En; lia|]. destruct f' as [|f']; [cbn in En; lia|].
  cbn [groups]. f_equal.
  eapply IH; [|reflexivity| |]; rewrite skipn_length; cbn [length] in *; lia.
Qed.
Lemma groups_step k g l f : 0 < k -> length g = k -> length (g ++ l) <= f ->
  groups f k (g ++ l) = g :: groups (length l) k l.
Proof.
  intros Hk Hg Hf. destruct f as [|f].
  - rewrite app_length in Hf. lia.
  - destruct g as [|x g]; [cbn in Hg; lia|].
    remember (x :: g) as gg eqn:Egg.
    assert (E : groups (S f) k (gg ++ l) = firstn k ((gg ++ l) ++ repeat false k) :: groups f k (skipn k (gg ++ l))).
    { subst gg. reflexivity. }
    rewrite E. f_equal.
    + rewrite <- app_assoc. subst k. rewrite firstn_app, Nat.sub_diag, firstn_all. cbn [firstn]. apply app_nil_r.
    + assert (E2 : skipn k (gg ++ l) = l).
      { subst k. rewrite skipn_app, skipn_all, Nat.sub_diag. reflexivity. }
      rewrite E2. apply groups_fuel; [lia| |]; rewrite ?app_length in Hf; lia.
Qed.
Lemma groups_last k g f : 0 < length g -> length g <= k -> length g <= f ->
  groups f k g = [g ++ repeat false (k - length g)].
Proof.
  intros H0 Hk Hf. destruct f as [|f]; [lia|].
  destruct g as [|x g]; [cbn in H0; lia|].
  remember (x :: g) as gg eqn:Egg.
  assert (E : groups (S f) k gg = firstn k (gg ++ repeat false k) :: groups f k (skipn k gg)).
  { subst gg. reflexivity. }
  rewrite E. rewrite skipn_all2 by lia. rewrite groups_nil. f_equal.
  rewrite firstn_app. rewrite firstn_all2 by lia. f_equal.
  clear. revert k. induction (length gg) as [|n IH]; intros k.
  - rewrite Nat.sub_0_r. rewrite <- (repeat_length false k) at 1. apply firstn_all.
  - destruct k as [|k]; [reflexivity|]. cbn [Nat.sub]. rewrite <- IH.
    cbn [repeat]. rewrite repeat_cons.
    rewrite firstn_app, repeat_length.
    replace (k - n - k) with 0 by lia. cbn [firstn]. apply app_nil_r.
Qed.

Lemma bits_length d : length (bits d) = 8 * length d.
Proof. induction d as [|a d IH]; [reflexivity|]. unfold bits in *. cbn [flat_map]. rewrite app_length, IH. cbn [length bits_of_byte map]. lia. Qed.

Definition sel (alphabet : bytes) (g : list bool) : byte := nth (N.to_nat (bits_val g)) alphabet x00.
Lemma spec_chars_eq al k d : spec_chars al k d = map (sel al) (groups (length (bits d)) k (bits d)).
Proof. reflexivity. Qed.

(* ---------------- base64 conformance ---------------- *)
Local Notation tb a i := (N.testbit (b2n a) i).
Local Notation S64 := (sel rfc4648_alphabet).

Lemma c64_0 a : b64_char (N.shiftr (b2n a) 2) = S64 [tb a 7; tb a 6; tb a 5; tb a 4; tb a 3; tb a 2].
Proof. revert a. apply byte_sweep_eq. vm_compute. reflexivity. Qed.
Lemma c64_1 a b : b64_char (N.shiftl (N.land (b2n a) 3) 4 + N.shiftr (b2n b) 4) =
  S64 [tb a 1; tb a 0; tb b 7; tb b 6; tb b 5; tb b 4].
Proof. revert a b. apply byte_sweep2_eq. vm_compute. reflexivity. Qed.
Lemma c64_1' a : b64_char (N.shiftl (N.land (b2n a) 3) 4) = S64 [tb a 1; tb a 0; false; false; false; false].
Proof. revert a. apply byte_sweep_eq. vm_compute. reflexivity. Qed.
Lemma c64_2 b c : b64_char (N.shiftl (N.land (b2n b) 15) 2 + N.shiftr (b2n c) 6) =
  S64 [tb b 3; tb b 2; tb b 1; tb b 0; tb c 7; tb c 6].
Proof. revert b c. apply byte_sweep2_eq. vm_compute. reflexivity. Qed.
Lemma c64_2' b : b64_char (N.shiftl (N.land (b2n b) 15) 2) = S64 [tb b 3; tb b 2; tb b 1; tb b 0; false; false].
Proof. revert b. apply byte_sweep_eq. vm_compute. reflexivity. Qed.
Lemma c64_3 c : b64_char (N.land (b2n c) 63) = S64 [tb c 5; tb c 4; tb c 3; tb c 2; tb c 1; tb c 0].
Proof. revert c. apply byte_sweep_eq. vm_compute. reflexivity. Qed.

(* induction by blocks *)
Lemma list_ind3 {A} (P : list A -> Prop) :
  P [] -> (forall a, P [a]) -> (forall a b, P [a; b]) ->
  (forall a b c l, P l -> P (a :: b :: c :: l)) -> forall l, P l.
Proof.
  intros H0 H1 H2 H3 l. remember (length l) as n eqn:En. revert l En.
  induction n as [n IH] using lt_wf_ind. intros l En.
  destruct l as [|a [|b [|c l]]]; auto. apply H3. eapply IH; [|reflexivity]. cbn in En. lia.
Qed.

Lemma b64_chars_spec3 a b c l :
  spec_chars rfc4648_alphabet 6 (a :: b :: c :: l) =
  S64 [tb a 7; tb a 6; tb a 5; tb a 4; tb a 3; tb a 2]
  :: S64 [tb a 1; tb a 0; tb b 7; tb b 6; tb b 5; tb b 4]
  :: S64 [tb b 3; tb b 2; tb b 1; tb b 0; tb c 7; tb c 6]
  :: S64 [tb c 5; tb c 4; tb c 3; tb c 2; tb c 1; tb c 0]
  :: spec_chars rfc4648_alphabet 6 l.
Proof.
  rewrite !spec_chars_eq.
  set (r := bits l).
  assert (E : bits (a :: b :: c :: l) =
    [tb a 7; tb a 6; tb a 5; tb a 4; tb a 3; tb a 2] ++
    [tb a 1; tb a 0; tb b 7; tb b 6; tb b 5; tb b 4] ++
    [tb b 3; tb b 2; tb b 1; tb b 0; tb c 7; tb c 6] ++
    [tb c 5; tb c 4; tb c 3; tb c 2; tb c 1; tb c 0] ++ r) by reflexivity.
  rewrite E. clear E.
  rewrite groups_step by (try reflexivity; lia). cbn [map]. f_equal.
  rewrite groups_step by (try reflexivity; lia). cbn [map]. f_equal.
  rewrite groups_step by (try reflexivity; lia). cbn [map]. f_equal.
  rewrite groups_step by (try reflexivity; lia). reflexivity.
Qed.
Lemma b64_chars_spec2 a b :
  spec_chars rfc4648_alphabet 6 [a; b] =
  [S64 [tb a 7; tb a 6; tb a 5; tb a 4; tb a 3; tb a 2];
   S64 [tb a 1; tb a 0; tb b 7; tb b 6; tb b 5; tb b 4];
   S64 [tb b 3; tb b 2; tb b 1; tb b 0; false; false]].
Proof. reflexivity. Qed.
Lemma b64_chars_spec1 a :
  spec_chars rfc4648_alphabet 6 [a] =
  [S64 [tb a 7; tb a 6; tb a 5; tb a 4; tb a 3; tb a 2];
   S64 [tb a 1; tb a 0; false; false; false; false]].
Proof.
  rewrite spec_chars_eq.
  assert (E : bits [a] = [tb a 7; tb a 6; tb a 5; tb a 4; tb a 3; tb a 2] ++ [tb a 1; tb a 0]) by reflexivity.
  rewrite E. clear E.
  rewrite groups_step by (try reflexivity; lia). reflexivity.
Qed.

Lemma b64_encode_chars_spec d : b64_encode_chars d = spec_base64 d.
Proof.
  induction d as [|a|a b|a b c l IH] using list_ind3.
  - reflexivity.
  - cbn [b64_encode_chars]. unfold spec_base64. rewrite b64_chars_spec1, c64_0, c64_1'. reflexivity.
  - cbn [b64_encode_chars]. unfold spec_base64. rewrite b64_chars_spec2, c64_0, c64_1, c64_2'. reflexivity.
  - cbn [b64_encode_chars]. rewrite c64_0, c64_1, c64_2, c64_3, IH.
    unfold spec_base64. rewrite b64_chars_spec3. cbn [app length].
    do 5 f_equal. f_equal.
    set (n := length _). replace (S (S (S (S n)))) with (n + 1 * 4) by lia.
    rewrite Nat.mod_add by lia. reflexivity.
Qed.

Lemma b64_chars_length d : length (b64_encode_chars d) = (length d + 2) / 3 * 4.
Proof.
  induction d as [|a|a b|a b c l IH] using list_ind3; try reflexivity.
  cbn [b64_encode_chars length]. rewrite IH.
  replace (S (S (S (length l))) + 2) with (length l + 2 + 1 * 3) by lia.
  rewrite Nat.div_add by lia. lia.
Qed.

Lemma b64_char_nonnul v : (v < 64)%N -> Byte.eqb (b64_char v) NUL = false.
Proof. intros H. apply negb_true_iff. revert v H. apply (sweep 64). vm_compute. reflexivity. Qed.

Lemma v0_lt a : (N.shiftr (b2n a) 2 < 64)%N.
Proof. apply N.ltb_lt. revert a. apply byte_sweep. vm_compute. reflexivity. Qed.
Lemma v1_lt a b : (N.shiftl (N.land (b2n a) 3) 4 + N.shiftr (b2n b) 4 < 64)%N.
Proof. apply N.ltb_lt. revert a b. apply byte_sweep2. vm_compute. reflexivity. Qed.
Lemma v1'_lt a : (N.shiftl (N.land (b2n a) 3) 4 < 64)%N.
Proof. apply N.ltb_lt. revert a. apply byte_sweep. vm_compute. reflexivity. Qed.
Lemma v2_lt a b : (N.shiftl (N.land (b2n a) 15) 2 + N.shiftr (b2n b) 6 < 64)%N.
Proof. apply N.ltb_lt. revert a b. apply byte_sweep2. vm_compute. reflexivity. Qed.
Lemma v2'_lt a : (N.shiftl (N.land (b2n a) 15) 2 < 64)%N.
Proof. apply N.ltb_lt. revert a. apply byte_sweep. vm_compute. reflexivity. Qed.
Lemma v3_lt a : (N.land (b2n a) 63 < 64)%N.
Proof. apply N.ltb_lt. revert a. apply byte_sweep. vm_compute. reflexivity. Qed.

Definition nonnul (s : bytes) : Prop := Forall (fun c => Byte.eqb c NUL = false) s.
Lemma b64_chars_nonnul d : nonnul (b64_encode_chars d).
Proof.
  unfold nonnul.
  induction d as [|a|a b|a b c l IH] using list_ind3; cbn [b64_encode_chars];
    repeat apply Forall_cons; try apply Forall_nil; try reflexivity;
    try (apply b64_char_nonnul; (apply v0_lt || apply v1_lt || apply v1'_lt || apply v2_lt || apply v2'_lt || apply v3_lt)).
  exact IH.
Qed.
Lemma strlen_nonnul s rest : nonnul s -> strlen (s ++ NUL :: rest) = Val (blen s).
Proof.
  intros H. induction H as [|c s Hc Hs IH]; cbn [app strlen]; [reflexivity|].
  rewrite Hc, IH. rewrite blen_cons. reflexivity.
Qed.

(* the encoder's result *)
Lemma base64_encode_val junk d : (0 < blen d)%N -> (blen d < 2 ^ 63)%N ->
  size_ok (N.of_nat ((length d + 2) / 3 * 4) + 1) = true ->
  base64_encode junk (Some d) =
  Val {| cb_mem := b64_encode_chars d ++ [NUL]; cb_len := blen (b64_encode_chars d) |}.
Proof.
  intros H0 Hmax Hok. unfold base64_encode.
  destruct (blen d =? 0)%N eqn:E; [lia|].
  assert (Esz : wadd64 ((wadd64 (blen d) 2 / 3 * 4) mod two64) 1 = (N.of_nat ((length d + 2) / 3 * 4) + 1)%N).
  { unfold wadd64, two64, blen, size_ok, MAX_BUFFER_SIZE in *. lia. }
  rewrite Esz.
  destruct (proj2 (create_empty_ok junk _) Hok) as [nb Hnb]. rewrite Hnb. cbn [lift rbind].
  apply create_empty_length in Hnb.
  assert (HL : blen nb = blen (b64_encode_chars d ++ [NUL])).
  { rewrite Hnb, blen_app. unfold blen. rewrite b64_chars_length. reflexivity. }
  rewrite (memwrite_all nb _ HL). cbn [rbind].
  rewrite strlen_nonnul by apply b64_chars_nonnul. reflexivity.
Qed.
Lemma base64_encode_null junk d : (blen d < 2 ^ 63)%N ->
  (blen d = 0 \/ MAX_BUFFER_SIZE < N.of_nat ((length d + 2) / 3 * 4) + 1)%N ->
  base64_encode junk (Some d) = Null.
Proof.
  intros Hmax Hok. unfold base64_encode.
  destruct (blen d =? 0)%N eqn:E; [reflexivity|].
  rewrite create_empty_none; [reflexivity|].
  unfold size_ok, wadd64, two64, MAX_BUFFER_SIZE, blen in *. lia.
Qed.

(* ---------------- base64 decoding ---------------- *)
Lemma b64_lookup_char sc v : (v < 64)%N -> b64_lookup sc (b64_char v) = Val (Z.of_N v).
Proof.
  intros H.
  assert (E : (match b64_lookup sc (b64_char v) with Val z => Z.eqb z (Z.of_N v) | _ => false end) = true).
  { destruct sc; revert v H; apply (sweep 64); vm_compute; reflexivity. }
  destruct (b64_lookup sc (b64_char v)) as [z| |]; try discriminate. apply Z.eqb_eq in E. congruence.
Qed.
Lemma b64_char_noteq v : (v < 64)%N -> Byte.eqb (b64_char v) EQ = false.
Proof. intros H. apply negb_true_iff. revert v H. apply (sweep 64). vm_compute. reflexivity. Qed.

Lemma b64_loop_char sc v p rem i j out : (v < 64)%N -> (0 < rem)%N ->
  b64_loop sc (b64_char v :: p) rem i j out =
  rbind (b64_store i j v out) (fun jo => b64_loop sc p (rem - 1) (S i) (fst jo) (snd jo)).
Proof.
  intros Hv Hr. cbn [b64_loop]. rewrite b64_char_nonnul, b64_char_noteq by assumption.
  destruct (rem =? 0)%N eqn:E; [lia|].
  rewrite b64_lookup_char by assumption. cbn [rbind].
  destruct (Z.eqb_spec (Z.of_N v) (-1)); [lia|].
  destruct (Z.eqb_spec (Z.of_N v) (-2)); [lia|].
  rewrite N2Z.id. reflexivity.
Qed.

Lemma put_app a x z v : put (a ++ x :: z) (length a) v = Val (a ++ v :: z).
Proof.
  unfold put. rewrite app_length. cbn [length].
  destruct (Nat.ltb_spec (length a) (length a + S (length z))); [|lia].
  rewrite firstn_app, Nat.sub_diag, firstn_all. cbn [firstn]. rewrite app_nil_r.
  f_equal. f_equal. f_equal.
  replace (S (length a)) with (length (a ++ [x])) by (rewrite app_length; cbn; lia).
  replace (a ++ x :: z) with ((a ++ [x]) ++ z) by (rewrite <- app_assoc; reflexivity).
  rewrite skipn_app, skipn_all, Nat.sub_diag. reflexivity.
Qed.
Lemma put_or_app a x z v : put_or (a ++ x :: z) (length a) v = Val (a ++ n2b (N.lor (b2n x) (b2n v)) :: z).
Proof.
  unfold put_or. rewrite nth_error_app2, Nat.sub_diag by lia. cbn [nth_error]. apply put_app.
Qed.

Lemma store0 i a x z v : i mod 4 = 0 ->
  b64_store i (length a) v (a ++ x :: z) = Val (length a, a ++ n2b (N.shiftl v 2) :: z).
Proof. intros H. unfold b64_store. rewrite H. cbn iota. rewrite put_app. reflexivity. Qed.
Lemma store1 i a x y z v : i mod 4 = 1 ->
  b64_store i (length a) v (a ++ x :: y :: z) =
  Val (S (length a), a ++ n2b (N.lor (b2n x) (b2n (n2b (N.shiftr v 4)))) :: n2b (N.shiftl (N.land v 15) 4) :: z).
Proof.
  intros H. unfold b64_store. rewrite H. cbn iota. rewrite put_or_app. cbn [rbind].
  set (w := n2b _).
  replace (a ++ w :: y :: z) with ((a ++ [w]) ++ y :: z) by (rewrite <- app_assoc; reflexivity).
  replace (S (length a)) with (length (a ++ [w])) by (rewrite app_length; cbn; lia).
  rewrite put_app. rewrite <- app_assoc. reflexivity.
Qed.
Lemma store2 i a x y z v : i mod 4 = 2 ->
  b64_store i (length a) v (a ++ x :: y :: z) =
  Val (S (length a), a ++ n2b (N.lor (b2n x) (b2n (n2b (N.shiftr v 2)))) :: n2b (N.shiftl (N.land v 3) 6) :: z).
Proof.
  intros H. unfold b64_store. rewrite H. cbn iota. rewrite put_or_app. cbn [rbind].
  set (w := n2b _).
  replace (a ++ w :: y :: z) with ((a ++ [w]) ++ y :: z) by (rewrite <- app_assoc; reflexivity).
  replace (S (length a)) with (length (a ++ [w])) by (rewrite app_length; cbn; lia).
  rewrite put_app. rewrite <- app_assoc. reflexivity.
Qed.
Lemma store3 i a x z v : i mod 4 = 3 ->
  b64_store i (length a) v (a ++ x :: z) =
  Val (S (length a), a ++ n2b (N.lor (b2n x) (b2n (n2b v))) :: z).
Proof. intros H. unfold b64_store. rewrite H. cbn iota. rewrite put_or_app. reflexivity. Qed.

(* reassembly of bytes from sextets *)
Lemma re0 a b : n2b (N.lor (b2n (n2b (N.shiftl (N.shiftr (b2n a) 2) 2)))
   (b2n (n2b (N.shiftr (N.shiftl (N.land (b2n a) 3) 4 + N.shiftr (b2n b) 4) 4)))) = a.
Proof. revert a b. apply byte_sweep2_eq. vm_compute. reflexivity. Qed.
Lemma re0' a : n2b (N.lor (b2n (n2b (N.shiftl (N.shiftr (b2n a) 2) 2)))
   (b2n (n2b (N.shiftr (N.shiftl (N.land (b2n a) 3) 4) 4)))) = a.
Proof. revert a. apply byte_sweep_eq. vm_compute. reflexivity. Qed.
Lemma re1a a b : N.land (N.shiftl (N.land (b2n a) 3) 4 + N.shiftr (b2n b) 4) 15 = N.shiftr (b2n b) 4.
Proof. revert a b. apply byte_sweep2_Neq. vm_compute. reflexivity. Qed.
Lemma re1b b c : N.shiftr (N.shiftl (N.land (b2n b) 15) 2 + N.shiftr (b2n c) 6) 2 = N.land (b2n b) 15.
Proof. revert b c. apply byte_sweep2_Neq. vm_compute. reflexivity. Qed.
Lemma re1b' b : N.shiftr (N.shiftl (N.land (b2n b) 15) 2) 2 = N.land (b2n b) 15.
Proof. revert b. apply byte_sweep_Neq. vm_compute. reflexivity. Qed.
Lemma re1 b : n2b (N.lor (b2n (n2b (N.shiftl (N.shiftr (b2n b) 4) 4))) (b2n (n2b (N.land (b2n b) 15)))) = b.
Proof. revert b. apply byte_sweep_eq. vm_compute. reflexivity. Qed.
Lemma re2a b c : N.land (N.shiftl (N.land (b2n b) 15) 2 + N.shiftr (b2n c) 6) 3 = N.shiftr (b2n c) 6.
Proof. revert b c. apply byte_sweep2_Neq. vm_compute. reflexivity. Qed.
Lemma re2 c : n2b (N.lor (b2n (n2b (N.shiftl (N.shiftr (b2n c) 6) 6))) (b2n (n2b (N.land (b2n c) 63)))) = c.
Proof. revert c. apply byte_sweep_eq. vm_compute. reflexivity. Qed.

Lemma b64_loop_EQ2 sc rem i j out : (2 <= rem)%N -> i mod 4 <> 1 ->
  b64_loop sc [EQ; EQ; NUL] rem i j out = Val (NUL, i, j, out).
Proof.
  intros Hr Hi. cbn [b64_loop].
  destruct (rem =? 0)%N eqn:E1; [lia|].
  destruct (rem - 1 =? 0)%N eqn:E2; [lia|].
  destruct (Nat.eqb_spec (i mod 4) 1) as [H|H]; [contradiction|].
  change (Byte.eqb EQ NUL) with false. change (Byte.eqb EQ EQ) with true. cbn iota.
  change (Byte.eqb NUL EQ) with false. cbn [negb andb]. change (Byte.eqb NUL NUL) with true. reflexivity.
Qed.
Lemma b64_loop_EQ1 sc rem i j out : (1 <= rem)%N -> i mod 4 <> 1 ->
  b64_loop sc [EQ; NUL] rem i j out = Val (NUL, i, j, out).
Proof.
  intros Hr Hi. cbn [b64_loop].
  destruct (rem =? 0)%N eqn:E1; [lia|].
  destruct (Nat.eqb_spec (i mod 4) 1) as [H|H]; [contradiction|].
  change (Byte.eqb EQ NUL) with false. change (Byte.eqb EQ EQ) with true. cbn iota.
  change (Byte.eqb NUL EQ) with false. cbn [negb andb]. change (Byte.eqb NUL NUL) with true. reflexivity.
Qed.

Lemma app_cons_assoc {A} (a : list A) x z : a ++ x :: z = (a ++ [x]) ++ z.
Proof. rewrite <- app_assoc. reflexivity. Qed.

Lemma b64_loop_roundtrip sc d : forall done z i,
  i mod 4 = 0 -> (length d + 2) / 3 * 4 <= length z ->
  exists i' z', b64_loop sc (b64_encode_chars d ++ [NUL]) (N.of_nat ((length d + 2) / 3 * 4)) i (length done) (done ++ z)
   = Val (NUL, i', length done + length d, done ++ d ++ z') /\ length (d ++ z') = length z.
Proof.
  induction d as [|a|a b|a b c l IH] using list_ind3; intros done z i Hi Hz.
  - exists i, z. cbn [b64_encode_chars app b64_loop]. change (Byte.eqb NUL NUL) with true. cbn iota.
    cbn [length]. rewrite Nat.add_0_r. split; reflexivity.
  - cbn [length] in Hz. destruct z as [|z0 [|z1 z]]; cbn [length] in Hz; try lia.
    cbn [b64_encode_chars app length]. change (N.of_nat ((1 + 2) / 3 * 4)) with 4%N.
    rewrite b64_loop_char by (apply v0_lt || lia). rewrite store0 by assumption. cbn [rbind fst snd].
    rewrite b64_loop_char by (apply v1'_lt || lia). rewrite store1 by lia. cbn [rbind fst snd].
    rewrite re0'. rewrite b64_loop_EQ2 by lia.
    eexists. eexists (_ :: z). split; [|cbn; lia].
    rewrite Nat.add_1_r. reflexivity.
  - cbn [length] in Hz. destruct z as [|z0 [|z1 [|z2 z]]]; cbn [length] in Hz; try lia.
    cbn [b64_encode_chars app length]. change (N.of_nat ((2 + 2) / 3 * 4)) with 4%N.
    rewrite b64_loop_char by (apply v0_lt || lia). rewrite store0 by assumption. cbn [rbind fst snd].
    rewrite b64_loop_char by (apply v1_lt || lia). rewrite store1 by lia. cbn [rbind fst snd].
    rewrite re0, re1a. rewrite (app_cons_assoc done a).
    replace (S (length done)) with (length (done ++ [a])) by (rewrite app_length; cbn; lia).
    rewrite b64_loop_char by (apply v2'_lt || lia). rewrite store2 by lia. cbn [rbind fst snd].
    rewrite re1b', re1. rewrite b64_loop_EQ1 by lia.
    eexists. eexists (_ :: z). split; [|cbn; lia].
    rewrite app_length. cbn [length]. rewrite <- app_assoc. cbn [app]. repeat f_equal. lia.
  - cbn [length] in Hz.
    assert (EL : (S (S (S (length l))) + 2) / 3 * 4 = 4 + (length l + 2) / 3 * 4).
    { replace (S (S (S (length l))) + 2) with (length l + 2 + 1 * 3) by lia.
      rewrite Nat.div_add by lia. lia. }
    rewrite EL in Hz. destruct z as [|z0 [|z1 [|z2 [|z3 z]]]]; cbn [length] in Hz; try lia.
    cbn [b64_encode_chars app length]. rewrite EL.
    rewrite b64_loop_char by (apply v0_lt || lia). rewrite store0 by assumption. cbn [rbind fst snd].
    rewrite b64_loop_char by (apply v1_lt || lia). rewrite store1 by lia. cbn [rbind fst snd].
    rewrite re0, re1a. rewrite (app_cons_assoc done a).
    replace (S (length done)) with (length (done ++ [a])) by (rewrite app_length; cbn; lia).
    rewrite b64_loop_char by (apply v2_lt || lia). rewrite store2 by lia. cbn [rbind fst snd].
    rewrite re1b, re1, re2a.
    replace ((done ++ [a]) ++ b :: n2b (N.shiftl (N.shiftr (b2n c) 6) 6) :: z3 :: z)
      with ((done ++ [a; b]) ++ n2b (N.shiftl (N.shiftr (b2n c) 6) 6) :: z3 :: z) by (rewrite <- !app_assoc; reflexivity).
    replace (S (length (done ++ [a]))) with (length (done ++ [a; b])) by (rewrite !app_length; cbn; lia).
    rewrite b64_loop_char by (apply v3_lt || lia). rewrite store3 by lia. cbn [rbind fst snd].
    rewrite re2.
    replace ((done ++ [a; b]) ++ c :: z3 :: z) with ((done ++ [a; b; c]) ++ z3 :: z) by (rewrite <- !app_assoc; reflexivity).
    replace (S (length (done ++ [a; b]))) with (length (done ++ [a; b; c])) by (rewrite !app_length; cbn; lia).
    destruct (IH (done ++ [a; b; c]) (z3 :: z) (S (S (S (S i))))) as (i' & z' & Hl & Hlen).
    + lia.
    + cbn [length]. lia.
    + exists i', z'. split.
      * replace (N.of_nat (4 + (length l + 2) / 3 * 4) - 1 - 1 - 1 - 1)%N with (N.of_nat ((length l + 2) / 3 * 4)) by lia.
        rewrite Hl. rewrite app_length. cbn [length]. rewrite <- app_assoc. cbn [app].
        replace (length done + 3 + length l) with (length done + S (S (S (length l)))) by lia. reflexivity.
      * cbn [app length] in *. lia.
Qed.

Lemma base64_roundtrip sc junk d c :
  (blen d < 2 ^ 63)%N ->
  base64_encode junk (Some d) = Val c ->
  exists r, base64_decode sc (Some c) = Val r /\ cb_data r = d /\ cb_len r = blen d.
Proof.
  intros Hmax Henc.
  destruct (N.eq_dec (blen d) 0) as [H0|H0].
  { rewrite base64_encode_null in Henc; [discriminate|assumption|lia]. }
  destruct (size_ok (N.of_nat ((length d + 2) / 3 * 4) + 1)) eqn:Hok.
  2:{ rewrite base64_encode_null in Henc; [discriminate|assumption|].
      unfold size_ok in Hok. lia. }
  rewrite base64_encode_val in Henc by (assumption || lia). injection Henc as <-.
  unfold base64_decode. cbn [cb_mem cb_len].
  rewrite strlen_nonnul by apply b64_chars_nonnul. cbn [rbind].
  destruct (blen (b64_encode_chars d) <? blen (b64_encode_chars d))%N eqn:E; [lia|].
  assert (EL : blen (b64_encode_chars d) = N.of_nat ((length d + 2) / 3 * 4)).
  { unfold blen. rewrite b64_chars_length. reflexivity. }
  rewrite EL.
  assert (Hok' : size_ok (N.of_nat ((length d + 2) / 3 * 4)) = true).
  { unfold size_ok, MAX_BUFFER_SIZE, blen in *. lia. }
  unfold buffer_create_empty_zero.
  destruct (proj2 (create_empty_ok (fun _ => x00) _) Hok') as [z Hz]. rewrite Hz. cbn [lift rbind].
  apply create_empty_length in Hz.
  destruct (b64_loop_roundtrip sc d [] z 0) as (i' & z' & Hl & Hlen).
  - reflexivity.
  - unfold blen in Hz. lia.
  - cbn [app length] in Hl. rewrite Hl. cbn [rbind]. unfold b64_mop.
    change (Byte.eqb NUL EQ) with false. cbn iota. cbn [rbind].
    eexists. split; [reflexivity|]. cbn [cb_data cb_mem cb_len]. split.
    + unfold cb_data. cbn [cb_mem cb_len]. rewrite Nat2N.id. cbn [Nat.add].
      rewrite firstn_app, Nat.sub_diag, firstn_all. cbn [firstn]. apply app_nil_r.
    + reflexivity.
Qed.
