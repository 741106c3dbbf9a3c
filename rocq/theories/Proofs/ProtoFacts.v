(* Facts about the wire format *)
From Coq Require Import ZifyBool ZifyNat ZifyN.
From Verif.Base Require Import Bytes.
From Verif.Model Require Import Buffer Proto.
From Verif.Proofs Require Import BytesFacts.
Ltac Zify.zify_post_hook ::= Z.div_mod_to_equations.
Local Open Scope N_scope.

Lemma varint_enc_dec : forall f f' n rest, (f < f')%nat -> n < 128 ^ N.of_nat (S f) ->
  varint_dec f' (varint_enc f n ++ rest)%list = Some (n, rest).
Proof.
  induction f as [|f IH]; intros f' n rest L B.
  - destruct f' as [|f']; [lia|]. cbn [varint_enc app varint_dec].
    replace (128 ^ N.of_nat 1) with 128 in B by reflexivity.
    rewrite b2n_n2b_small by lia. destruct (N.ltb_spec n 128); [reflexivity|lia].
  - destruct f' as [|f']; [lia|]. cbn [varint_enc].
    destruct (N.ltb_spec n 128).
    + cbn [app varint_dec]. rewrite b2n_n2b_small by lia. destruct (N.ltb_spec n 128); [reflexivity|lia].
    + cbn [app varint_dec]. rewrite b2n_n2b_small by lia.
      destruct (N.ltb_spec (128 + n mod 128) 128); [lia|].
      assert (D : n / 128 < 128 ^ N.of_nat (S f)).
      { apply N.div_lt_upper_bound; [lia|]. rewrite Nat2N.inj_succ, N.pow_succ_r' in B. exact B. }
      rewrite (IH f' (n / 128) rest) by (lia || exact D).
      apply f_equal. apply f_equal2; [|reflexivity]. lia.
Qed.
(* a larger bound on the encoder changes nothing once the value fits *)
Lemma varint_enc_fuel : forall f g n, (f <= g)%nat -> n < 128 ^ N.of_nat (S f) -> varint_enc g n = varint_enc f n.
Proof.
  induction f as [|f IH]; intros g n L B.
  - replace (128 ^ N.of_nat 1) with 128 in B by reflexivity. destruct g as [|g]; [reflexivity|].
    cbn [varint_enc]. destruct (N.ltb_spec n 128); [reflexivity|lia].
  - destruct g as [|g]; [lia|]. cbn [varint_enc]. destruct (N.ltb_spec n 128); [reflexivity|].
    rewrite (IH g) by (lia || (apply N.div_lt_upper_bound; [lia|]; rewrite Nat2N.inj_succ, N.pow_succ_r' in B; exact B)). reflexivity.
Qed.
Lemma varint_10 n rest : n < two64 -> varint_dec 10 (varint n ++ rest)%list = Some (n, rest).
Proof.
  intros B. apply varint_enc_dec; [lia|]. eapply N.lt_le_trans; [exact B|]. vm_compute. discriminate.
Qed.
Lemma varint_5 n rest : n < two32 -> varint_dec 5 (varint n ++ rest)%list = Some (n, rest).
Proof.
  intros B. unfold varint. rewrite (varint_enc_fuel 4 9).
  - apply varint_enc_dec; [lia|]. eapply N.lt_le_trans; [exact B|]. vm_compute. discriminate.
  - lia.
  - eapply N.lt_le_trans; [exact B|]. vm_compute. discriminate.
Qed.
Lemma varint_enc_nonempty f n : varint_enc f n <> [].
Proof. destruct f; cbn [varint_enc]; [discriminate|]. destruct (n <? 128); discriminate. Qed.
Lemma varint_nonempty n : varint n <> [].
Proof. apply varint_enc_nonempty. Qed.

Lemma varint_dec_shorter : forall f l v r, varint_dec f l = Some (v, r) -> (length r < length l)%nat.
Proof.
  induction f as [|f IH]; intros l v r H; cbn [varint_dec] in H; [discriminate|].
  destruct l as [|c l]; [discriminate|]. destruct (b2n c <? 128).
  - inversion H; subst. cbn [length]. lia.
  - destruct (varint_dec f l) as [[v' r']|] eqn:E; [|discriminate]. inversion H; subst.
    apply IH in E. cbn [length]. lia.
Qed.
Lemma take_n_app n (b rest : bytes) : blen b = n -> take_n n (b ++ rest)%list = Some (b, rest).
Proof.
  intros E. unfold take_n. rewrite blen_app. destruct (N.ltb_spec (blen b + blen rest) n); [lia|].
  unfold blen in E. replace (N.to_nat n) with (length b) by lia.
  rewrite firstn_app, skipn_app, Nat.sub_diag, firstn_all, skipn_all. cbn [firstn skipn app].
  rewrite app_nil_r. reflexivity.
Qed.
Lemma take_n_shorter n l b r : take_n n l = Some (b, r) -> (length r <= length l)%nat.
Proof.
  unfold take_n. destruct (blen l <? n); [discriminate|]. intros H. injection H as _ <-.
  rewrite skipn_length. lia.
Qed.
Lemma scan1_shorter l x r : scan1 l = Some (x, r) -> (length r < length l)%nat.
Proof.
  unfold scan1. destruct (varint_dec 5 l) as [[key r0]|] eqn:E; [|discriminate].
  apply varint_dec_shorter in E. cbv zeta.
  assert (forall n l' b r' (y : wval), match take_n n l' with Some (b, r') => Some ((key / 8, y), r') | None => None end = Some (b, r') -> (length r' <= length l')%nat) as T.
  { intros n l' b r' y. destruct (take_n n l') as [[b0 r1]|] eqn:T; [|discriminate]. intros H. injection H as _ <-.
    exact (take_n_shorter _ _ _ _ T). }
  destruct (key mod 8) as [|p]; [|].
  - destruct (varint_dec 10 r0) as [[v r']|] eqn:V; [|discriminate]. intros H. injection H as _ <-.
    apply varint_dec_shorter in V. lia.
  - assert (G : forall n, match take_n n r0 with Some (b, r') => Some ((key / 8, W64 b), r') | None => None end = Some (x, r) -> (length r < length l)%nat).
    { intros n. destruct (take_n n r0) as [[b r']|] eqn:W; [|discriminate]. intros H. injection H as _ <-.
      apply take_n_shorter in W. lia. }
    assert (G2 : forall n, match take_n n r0 with Some (b, r') => Some ((key / 8, W32 b), r') | None => None end = Some (x, r) -> (length r < length l)%nat).
    { intros n. destruct (take_n n r0) as [[b r']|] eqn:W; [|discriminate]. intros H. injection H as _ <-.
      apply take_n_shorter in W. lia. }
    destruct p as [[p|p|]|[p|p|]|]; try discriminate; try (apply G); try (destruct p; try discriminate; apply G2).
    destruct (varint_dec 5 r0) as [[n r1]|] eqn:V; [|discriminate].
    destruct (take_n n r1) as [[b r']|] eqn:W; [|discriminate]. intros H. injection H as _ <-.
    apply take_n_shorter in W. apply varint_dec_shorter in V. lia.
Qed.
Lemma scan_fuel_enough : forall f g l, (length l <= f)%nat -> (length l <= g)%nat -> scan_fuel f l = scan_fuel g l.
Proof.
  induction f as [|f IH]; intros g l Lf Lg.
  - destruct l; [|cbn [length] in Lf; lia]. destruct g; reflexivity.
  - destruct l as [|c l]; [destruct g; reflexivity|]. destruct g as [|g]; [cbn [length] in Lg; lia|].
    cbn [scan_fuel]. destruct (scan1 (c :: l)) as [[x r]|] eqn:E; [|reflexivity].
    apply scan1_shorter in E. rewrite (IH g r) by lia. reflexivity.
Qed.
Lemma scan_cons l x r : scan1 l = Some (x, r) ->
  scan l = match scan r with Some fs => Some (x :: fs) | None => None end.
Proof.
  intros E. pose proof (scan1_shorter _ _ _ E) as L. unfold scan.
  destruct l as [|c l]; [cbn [length] in L; lia|]. cbn [length scan_fuel]. rewrite E.
  rewrite (scan_fuel_enough (length l) (length r)) by (cbn [length] in L; lia). reflexivity.
Qed.
Lemma scan_nil : scan [] = Some [].
Proof. reflexivity. Qed.

Lemma key_div t : (8 * t) / 8 = t /\ (8 * t) mod 8 = 0 /\ (8 * t + 2) / 8 = t /\ (8 * t + 2) mod 8 = 2.
Proof. repeat split; lia. Qed.
Lemma scan1_var t v rest : t < 1000 -> v < two64 -> scan1 (f_var t v ++ rest) = Some ((t, WVar v), rest).
Proof.
  intros Ht Hv. unfold scan1, f_var. rewrite <- app_assoc. rewrite varint_5 by (unfold two32; lia).
  destruct (key_div t) as (-> & -> & _). cbv zeta. rewrite varint_10 by exact Hv. reflexivity.
Qed.
Lemma scan1_len t b rest : t < 1000 -> blen b < two32 -> scan1 (f_len t b ++ rest) = Some ((t, WLen b), rest).
Proof.
  intros Ht Hb. unfold scan1, f_len. rewrite <- !app_assoc. rewrite varint_5 by (unfold two32; lia).
  destruct (key_div t) as (_ & _ & -> & ->). cbv zeta. rewrite varint_5 by exact Hb.
  rewrite take_n_app by reflexivity. reflexivity.
Qed.
Lemma scan_var t v rest : t < 1000 -> v < two64 ->
  scan (f_var t v ++ rest) = match scan rest with Some fs => Some ((t, WVar v) :: fs) | None => None end.
Proof. intros A B. apply scan_cons. apply scan1_var; assumption. Qed.
Lemma scan_len t b rest : t < 1000 -> blen b < two32 ->
  scan (f_len t b ++ rest) = match scan rest with Some fs => Some ((t, WLen b) :: fs) | None => None end.
Proof. intros A B. apply scan_cons. apply scan1_len; assumption. Qed.
Lemma scan_var_opt t v rest : t < 1000 -> (forall x, v = Some x -> x < two64) ->
  scan (f_var_opt t v ++ rest) =
  match scan rest with Some fs => Some (match v with Some x => [(t, WVar x)] | None => [] end ++ fs)%list | None => None end.
Proof.
  intros A B. destruct v; cbn [f_var_opt]; [rewrite scan_var by auto; reflexivity|].
  cbn [app]. destruct (scan rest); reflexivity.
Qed.
Lemma scan_len_opt t v rest : t < 1000 -> (forall x, v = Some x -> blen x < two32) ->
  scan (f_len_opt t v ++ rest) =
  match scan rest with Some fs => Some (match v with Some x => [(t, WLen x)] | None => [] end ++ fs)%list | None => None end.
Proof.
  intros A B. destruct v; cbn [f_len_opt]; [rewrite scan_len by auto; reflexivity|].
  cbn [app]. destruct (scan rest); reflexivity.
Qed.
Lemma blen_f_len t b : blen b <= blen (f_len t b).
Proof. unfold f_len. rewrite !blen_app. lia. Qed.
Lemma f_len_nonempty t b : f_len t b <> [].
Proof. unfold f_len. destruct (varint (8 * t + 2)) eqn:E; [destruct (varint_nonempty _ E)|discriminate]. Qed.
Lemma f_var_nonempty t v : f_var t v <> [].
Proof. unfold f_var. destruct (varint (8 * t)) eqn:E; [destruct (varint_nonempty _ E)|discriminate]. Qed.
(* sizes of encoded fields *)
Lemma varint_size n : blen (varint n) <= 10.
Proof.
  assert (H : forall f n, (length (varint_enc f n) <= S f)%nat).
  { induction f as [|f IH]; intros m; cbn [varint_enc]; [cbn; lia|]. destruct (m <? 128); cbn [length]; [lia|]. specialize (IH (m / 128)). lia. }
  unfold varint, blen. specialize (H 9%nat n). lia.
Qed.
Lemma f_len_size t b : blen (f_len t b) <= blen b + 20.
Proof. unfold f_len. rewrite !blen_app. pose proof (varint_size (8 * t + 2)). pose proof (varint_size (blen b)). lia. Qed.
Lemma f_var_size t v : blen (f_var t v) <= 20.
Proof. unfold f_var. rewrite !blen_app. pose proof (varint_size (8 * t)). pose proof (varint_size v). lia. Qed.
Lemma f_var_opt_size t v : blen (f_var_opt t v) <= 20.
Proof. destruct v; cbn [f_var_opt]; [apply f_var_size|rewrite blen_nil; lia]. Qed.
Definition oblen (o : option bytes) : N := match o with Some x => blen x | None => 0 end.
Lemma f_len_opt_size t o : blen (f_len_opt t o) <= oblen o + 20.
Proof. destruct o; cbn [f_len_opt oblen]; [apply f_len_size|rewrite blen_nil; lia]. Qed.
