(* Base64 decoder memory safety; hexadecimal functions *)
From Verif.Base Require Import Bytes.
From Verif.Model Require Import Buffer CString Base64 Hex.
From Verif.Spec Require Import TextSpec.
From Verif.Proofs Require Import BytesFacts BufferFacts TextFacts.
From Coq Require Import ZifyBool ZifyNat ZifyN.
Ltac Zify.zify_post_hook ::= Z.div_mod_to_equations.

Lemma put_ok m i v : i < length m -> exists m', put m i v = Val m' /\ length m' = length m.
Proof.
  intros H. unfold put. destruct (Nat.ltb_spec i (length m)); [|lia].
  eexists. split; [reflexivity|]. rewrite app_length, firstn_length. cbn [length]. rewrite skipn_length. lia.
Qed.
Lemma put_or_ok m i v : i < length m -> exists m', put_or m i v = Val m' /\ length m' = length m.
Proof.
  intros H. unfold put_or. destruct (nth_error m i) eqn:E; [apply put_ok; assumption|].
  apply nth_error_None in E. lia.
Qed.

Lemma b64_store_ok i v out L : length out = L -> i < L ->
  exists j' out', b64_store i (3 * i / 4) v out = Val (j', out') /\ j' = 3 * S i / 4 /\ length out' = L.
Proof.
  intros HL Hi. unfold b64_store.
  destruct (i mod 4) as [|[|[|k]]] eqn:E.
  - destruct (put_ok out (3 * i / 4) (n2b (N.shiftl v 2))) as (o & -> & Ho); [lia|]. cbn [rbind].
    eexists; eexists. split; [reflexivity|]. lia.
  - destruct (put_or_ok out (3 * i / 4) (n2b (N.shiftr v 4))) as (o & -> & Ho); [lia|]. cbn [rbind].
    destruct (put_ok o (S (3 * i / 4)) (n2b (N.shiftl (N.land v 15) 4))) as (o2 & -> & Ho2); [lia|]. cbn [rbind].
    eexists; eexists. split; [reflexivity|]. lia.
  - destruct (put_or_ok out (3 * i / 4) (n2b (N.shiftr v 2))) as (o & -> & Ho); [lia|]. cbn [rbind].
    destruct (put_ok o (S (3 * i / 4)) (n2b (N.shiftl (N.land v 3) 6))) as (o2 & -> & Ho2); [lia|]. cbn [rbind].
    eexists; eexists. split; [reflexivity|]. lia.
  - destruct (put_or_ok out (3 * i / 4) (n2b v)) as (o & -> & Ho); [lia|]. cbn [rbind].
    eexists; eexists. split; [reflexivity|]. lia.
Qed.

Definition ascii_only (s : bytes) : Prop := Forall (fun c => (b2n c < 128)%N) s.

Lemma b64_lookup_ok sc c : sc = false \/ (b2n c < 128)%N -> exists z, b64_lookup sc c = Val z.
Proof.
  intros H.
  assert (E : (match b64_lookup false c with Val _ => true | _ => false end) = true).
  { revert c H. intros c _. revert c. apply byte_sweep. vm_compute. reflexivity. }
  unfold b64_lookup in *. cbn [andb] in E.
  assert (E2 : (sc && (128 <=? b2n c)%N) = false) by (destruct sc; cbn; [destruct H; [discriminate|lia]|reflexivity]).
  rewrite E2. destruct (nth_error b64_dec_table (N.to_nat (b2n c))); [eauto|discriminate].
Qed.

Definition loop_post (p : bytes) (rem : N) (L : nat) (r : res (byte * nat * nat * bytes)) : Prop :=
  match r with
  | UB => False
  | Null => True
  | Val (last, i', j', out') =>
      j' = 3 * i' / 4 /\ i' <= L /\ length out' = L /\
      (last = NUL \/ nth_error p (N.to_nat rem) = Some last)
  end.

Lemma b64_loop_safe sc s rest L : nonnul s -> (sc = false \/ ascii_only s) ->
  forall rem i out, length out = L -> i + N.to_nat rem <= L ->
  loop_post (s ++ NUL :: rest) rem L (b64_loop sc (s ++ NUL :: rest) rem i (3 * i / 4) out).
Proof.
  intros Hs. induction Hs as [|c s Hc Hs IH]; intros Ha rem i out Ho Hi.
  - cbn [app b64_loop]. change (Byte.eqb NUL NUL) with true. cbn iota. cbn. repeat split; try lia. auto.
  - assert (Ha' : sc = false \/ ascii_only s).
    { destruct Ha as [Ha|Ha]; [auto|]. right. inversion Ha; assumption. }
    assert (Hc' : sc = false \/ (b2n c < 128)%N).
    { destruct Ha as [Ha|Ha]; [auto|]. right. inversion Ha; assumption. }
    specialize (IH Ha').
    assert (Hpost : (0 < rem)%N -> forall r, loop_post (s ++ NUL :: rest) (rem - 1) L r -> loop_post (c :: (s ++ NUL :: rest)) rem L r).
    { intros Hrem r. destruct r as [[[[last i'] j'] out']| |]; cbn [loop_post]; auto.
      intros (H1 & H2 & H3 & H4). repeat split; try assumption.
      destruct H4 as [H4|H4]; [auto|]. right.
      replace (N.to_nat rem) with (S (N.to_nat (rem - 1))) by lia. exact H4. }
    cbn [app b64_loop]. rewrite Hc.
    destruct (rem =? 0)%N eqn:Er.
    { cbn [loop_post]. repeat split; try lia. right. replace (N.to_nat rem) with 0 by lia. reflexivity. }
    destruct (Byte.eqb c EQ) eqn:Eeq.
    + destruct (s ++ NUL :: rest) as [|c' p'] eqn:Es; [destruct s; discriminate|].
      destruct (negb (Byte.eqb c' EQ) && (i mod 4 =? 1)); [exact I|].
      apply Hpost; [lia|]. apply IH; lia.
    + destruct (b64_lookup_ok sc c Hc') as [z ->]. cbn [rbind].
      destruct (Z.eqb z (-1)); [apply Hpost; [lia|]; apply IH; lia|].
      destruct (Z.eqb z (-2)); [exact I|].
      destruct (b64_store_ok i (Z.to_N z) out L Ho) as (j' & out' & -> & Hj & Hl); [lia|].
      cbn [rbind fst snd]. subst j'. apply Hpost; [lia|]. apply IH; [assumption|lia].
Qed.

Lemma base64_decode_safe sc s rest len :
  nonnul s -> (sc = false \/ ascii_only s) ->
  ~ (len = 2%N /\ nth_error s 2 = Some EQ) ->
  base64_decode sc (Some {| cb_mem := s ++ NUL :: rest; cb_len := len |}) <> UB /\
  (forall r, base64_decode sc (Some {| cb_mem := s ++ NUL :: rest; cb_len := len |}) = Val r ->
     (cb_len r <= blen (cb_mem r))%N).
Proof.
  intros Hs Ha Hbad. unfold base64_decode. cbn [cb_mem cb_len].
  rewrite strlen_nonnul by assumption. cbn [rbind].
  set (L := (if (len <? blen s)%N then len else blen s)).
  unfold buffer_create_empty_zero.
  destruct (buffer_create_empty (fun _ => x00) L) as [out|] eqn:Eout; [|split; [discriminate|intros r H; discriminate]].
  cbn [lift rbind].
  assert (HL : (L <= blen s)%N) by (unfold L; destruct (len <? blen s)%N eqn:E; lia).
  apply create_empty_length in Eout.
  pose proof (b64_loop_safe sc s rest (N.to_nat L) Hs Ha L 0 out) as P.
  change (3 * 0 / 4) with 0 in P.
  destruct (b64_loop sc (s ++ NUL :: rest) L 0 0 out) as [[[[last i'] j'] out']| |].
  - cbn [loop_post] in P. destruct P as (Hj & Hi & Hlen & Hlast); [unfold blen in Eout; lia|lia|].
    cbn [rbind].
    assert (M : exists o, (b64_mop last i' j' out' = Val o /\ length o = length out') \/ b64_mop last i' j' out' = Null).
    { unfold b64_mop. destruct (Byte.eqb last EQ) eqn:El.
      2:{ exists out'. left. auto. }
      apply byte_eqb_spec in El. subst last.
      destruct (i' mod 4) as [|[|[|[|k]]]] eqn:Em.
      - exists out'. auto.
      - exists out'. auto.
      - destruct (Nat.lt_ge_cases (S j') (length out')) as [Hlt|Hge].
        + destruct (put_ok out' (S j') NUL Hlt) as (o & -> & Ho). exists o. auto.
        + exfalso. apply Hbad.
          assert (i' = 2 /\ N.to_nat L = 2) as [-> HL2] by lia.
          assert (L = 2%N) by lia.
          destruct Hlast as [Hlast|Hlast]; [discriminate|].
          rewrite HL2 in Hlast.
          assert (Hlen2 : 2 < length s).
          { destruct (Nat.lt_ge_cases 2 (length s)) as [Hx|Hx]; [exact Hx|].
            rewrite nth_error_app2 in Hlast by lia.
            assert (Hl2 : length s = 2) by (unfold blen in HL; lia).
            rewrite Hl2 in Hlast. cbn in Hlast. discriminate. }
          rewrite nth_error_app1 in Hlast by lia. split; [|exact Hlast].
          unfold L, blen in *. destruct (len <? N.of_nat (length s))%N eqn:E; lia.
      - destruct (put_ok out' j' NUL) as (o & -> & Ho); [lia|]. exists o. auto.
      - exists out'. auto. }
    destruct M as (o & [[-> Ho]| ->]); cbn [rbind].
    + split; [discriminate|]. intros r [= <-]. cbn [cb_mem cb_len]. unfold blen. lia.
    + split; [discriminate|]. intros r H; discriminate.
  - cbn [rbind]. split; [discriminate|intros r H; discriminate].
  - cbn [loop_post] in P. exfalso. apply P; [unfold blen in Eout; lia|lia].
Qed.

(* ---------------- hexadecimal ---------------- *)
Local Notation S16 := (sel hex_alphabet).
Local Notation tb a i := (N.testbit (b2n a) i).
Lemma h_hi a : nibbleToChar (N.shiftr (b2n a) 4) = S16 [tb a 7; tb a 6; tb a 5; tb a 4].
Proof. revert a. apply byte_sweep_eq. vm_compute. reflexivity. Qed.
Lemma h_lo a : nibbleToChar (N.land (b2n a) 15) = S16 [tb a 3; tb a 2; tb a 1; tb a 0].
Proof. revert a. apply byte_sweep_eq. vm_compute. reflexivity. Qed.
Lemma hex_chars_spec d : hex_chars d = spec_hex d.
Proof.
  induction d as [|a d IH]; [reflexivity|].
  cbn [hex_chars]. rewrite IH, h_hi, h_lo. unfold spec_hex. rewrite !spec_chars_eq.
  assert (E : bits (a :: d) = [tb a 7; tb a 6; tb a 5; tb a 4] ++ [tb a 3; tb a 2; tb a 1; tb a 0] ++ bits d) by reflexivity.
  rewrite E. rewrite groups_step by (try reflexivity; lia). cbn [map]. f_equal.
  rewrite groups_step by (try reflexivity; lia). reflexivity.
Qed.
Lemma hex_chars_length d : length (hex_chars d) = 2 * length d.
Proof. induction d as [|a d IH]; cbn [hex_chars length]; lia. Qed.
Lemma hex_nonnul d : nonnul (hex_chars d).
Proof.
  induction d as [|a d IH]; cbn [hex_chars]; [apply Forall_nil|].
  repeat apply Forall_cons; [| |exact IH]; apply negb_true_iff; clear IH; revert a; apply byte_sweep; vm_compute; reflexivity.
Qed.
Lemma strToChar_nibbles a :
  strToChar (nibbleToChar (N.shiftr (b2n a) 4)) (nibbleToChar (N.land (b2n a) 15)) = a.
Proof. revert a. apply (byte_sweep_eq (fun a => strToChar _ _) (fun a => a)). vm_compute. reflexivity. Qed.

Lemma hex_encode_val junk d : (blen d < 2 ^ 63)%N -> (2 * blen d + 1 <= MAX_BUFFER_SIZE)%N ->
  hex_encode junk (Some d) = Val {| cb_mem := hex_chars d ++ [NUL]; cb_len := 2 * blen d |}.
Proof.
  intros H63 Hmax. unfold hex_encode, MAX_BUFFER_SIZE in *.
  assert (E : wadd64 ((blen d * 2) mod two64) 1 = (2 * blen d + 1)%N) by (unfold wadd64, two64; lia).
  rewrite E.
  assert (Hok : size_ok (2 * blen d + 1) = true) by (unfold size_ok, MAX_BUFFER_SIZE; lia).
  destruct (proj2 (create_empty_ok junk _) Hok) as [nb Hnb]. rewrite Hnb. cbn [lift rbind].
  apply create_empty_length in Hnb.
  assert (HL : blen nb = blen (hex_chars d ++ [NUL])).
  { rewrite Hnb, blen_app. unfold blen. rewrite hex_chars_length. cbn [length]. lia. }
  rewrite (memwrite_all nb _ HL). cbn [rbind]. rewrite Hnb. unfold wsub64, two64. do 2 f_equal. lia.
Qed.
Lemma hex_encode_null junk d : (blen d < 2 ^ 63)%N -> (MAX_BUFFER_SIZE < 2 * blen d + 1)%N ->
  hex_encode junk (Some d) = Null.
Proof.
  intros H63 Hmax. unfold hex_encode. rewrite create_empty_none; [reflexivity|].
  unfold wadd64, two64, size_ok, MAX_BUFFER_SIZE in *. lia.
Qed.

(* pairs of characters *)
Fixpoint pairs (s : bytes) : bytes :=
  match s with
  | a :: b :: s' => strToChar a b :: pairs s'
  | _ => []
  end.
Lemma list_ind2 {A} (P : list A -> Prop) :
  P [] -> (forall a, P [a]) -> (forall a b l, P l -> P (a :: b :: l)) -> forall l, P l.
Proof.
  intros H0 H1 H2 l. remember (length l) as n eqn:En. revert l En.
  induction n as [n IH] using lt_wf_ind. intros l En.
  destruct l as [|a [|b l]]; auto. apply H2. eapply IH; [|reflexivity]. cbn in En. lia.
Qed.
Lemma hex_loop_pairs s rest : nonnul s -> hex_loop (s ++ NUL :: rest) = Val (pairs s).
Proof.
  induction s as [|a|a b s IH] using list_ind2; intros H.
  - reflexivity.
  - inversion H as [|? ? Ha _]; subst. cbn [app hex_loop]. rewrite Ha. reflexivity.
  - inversion H as [|? ? Ha H']; subst. inversion H' as [|? ? Hb Hs]; subst.
    cbn [app hex_loop]. rewrite Ha, Hb. rewrite IH by assumption. reflexivity.
Qed.
Lemma pairs_length s : length (pairs s) = length s / 2.
Proof.
  induction s as [|a|a b s IH] using list_ind2; try reflexivity.
  cbn [pairs length]. rewrite IH. lia.
Qed.
Lemma hex_decode_val junk s rest len : nonnul s ->
  hex_decode junk (Some {| cb_mem := s ++ NUL :: rest; cb_len := len |}) =
  if size_ok (blen s / 2) then Val (pairs s) else Null.
Proof.
  intros Hs. unfold hex_decode. cbn [cb_mem]. rewrite strlen_nonnul by assumption. cbn [rbind].
  destruct (size_ok (blen s / 2)) eqn:Hok.
  - destruct (proj2 (create_empty_ok junk _) Hok) as [nb Hnb]. rewrite Hnb. cbn [lift rbind].
    apply create_empty_length in Hnb. rewrite hex_loop_pairs by assumption. cbn [rbind].
    apply memwrite_all. rewrite Hnb. unfold blen. rewrite pairs_length. lia.
  - rewrite create_empty_none by assumption. reflexivity.
Qed.
Lemma pairs_hex_chars d : pairs (hex_chars d) = d.
Proof. induction d as [|a d IH]; [reflexivity|]. cbn [hex_chars pairs]. rewrite IH, strToChar_nibbles. reflexivity. Qed.

Lemma hex_roundtrip junk junk' d c : (0 < blen d)%N -> (blen d < 2 ^ 63)%N ->
  hex_encode junk (Some d) = Val c -> hex_decode junk' (Some c) = Val d.
Proof.
  intros H0 H63 He.
  destruct (N.le_gt_cases (2 * blen d + 1) MAX_BUFFER_SIZE) as [H|H].
  - rewrite hex_encode_val in He by assumption. injection He as <-.
    rewrite hex_decode_val by apply hex_nonnul. rewrite pairs_hex_chars.
    assert (E : (blen (hex_chars d) / 2)%N = blen d).
    { unfold blen. rewrite hex_chars_length. lia. }
    rewrite E. assert (Hok : size_ok (blen d) = true) by (unfold size_ok, MAX_BUFFER_SIZE in *; lia).
    rewrite Hok. reflexivity.
  - rewrite hex_encode_null in He by assumption. discriminate.
Qed.
