From Verif.Base Require Import Bytes.
From Verif.Model Require Import Buffer.
From Verif.Proofs Require Import BytesFacts.
From Coq Require Import ZifyBool ZifyNat ZifyN.
Ltac Zify.zify_post_hook ::= Z.div_mod_to_equations.
Local Open Scope N_scope.

Lemma create_empty_length junk len b :
  buffer_create_empty junk len = Some b -> blen b = len.
Proof.
  unfold buffer_create_empty. destruct ((MAX_BUFFER_SIZE <? len) || (len =? 0)); [discriminate|].
  intros [= <-]. unfold blen. rewrite map_length, seq_length. lia.
Qed.
Lemma create_empty_ok junk len :
  (exists b, buffer_create_empty junk len = Some b) <-> size_ok len = true.
Proof.
  unfold buffer_create_empty, size_ok. split.
  - intros [b H]. destruct ((MAX_BUFFER_SIZE <? len) || (len =? 0)) eqn:E; [discriminate|]. lia.
  - intros H. destruct ((MAX_BUFFER_SIZE <? len) || (len =? 0)) eqn:E; [lia|]. eauto.
Qed.
Lemma create_empty_none junk len :
  size_ok len = false -> buffer_create_empty junk len = None.
Proof.
  unfold buffer_create_empty, size_ok. intros H.
  destruct ((MAX_BUFFER_SIZE <? len) || (len =? 0)) eqn:E; [reflexivity|lia].
Qed.

Lemma memread_ok s st len : st + len <= blen s ->
  memread s st len = Val (slice s (N.to_nat st) (N.to_nat len)).
Proof. intros H. unfold memread. destruct (st + len <=? blen s) eqn:E; [reflexivity|lia]. Qed.
Lemma slice_blen s st len : st + len <= blen s -> blen (slice s (N.to_nat st) (N.to_nat len)) = len.
Proof. unfold blen. intros H. rewrite slice_length. lia. Qed.
Lemma memread_all s : memread s 0 (blen s) = Val s.
Proof.
  rewrite memread_ok by lia. f_equal. unfold slice, blen. rewrite Nat2N.id. cbn [N.to_nat skipn].
  change (N.to_nat 0) with 0%nat. cbn [skipn]. apply firstn_all.
Qed.
Lemma memwrite_all dst src : blen dst = blen src -> memwrite dst 0 src (blen src) = Val src.
Proof.
  intros H. unfold memwrite. rewrite memread_all. cbn [rbind].
  destruct (0 + blen src <=? blen dst) eqn:E; [|lia].
  change (N.to_nat 0) with 0%nat. cbn [firstn app].
  rewrite skipn_all2; [rewrite app_nil_r; reflexivity|].
  unfold blen in *. lia.
Qed.
Lemma memwrite_mid a m z src : blen m = blen src ->
  memwrite (a ++ m ++ z) (blen a) src (blen src) = Val (a ++ src ++ z).
Proof.
  intros H. unfold memwrite. rewrite memread_all. cbn [rbind].
  destruct (blen a + blen src <=? blen (a ++ m ++ z)) eqn:E.
  2:{ rewrite !blen_app in E. lia. }
  unfold blen. rewrite Nat2N.id.
  rewrite firstn_app, Nat.sub_diag, firstn_all. cbn [firstn]. rewrite app_nil_r.
  f_equal. f_equal. f_equal.
  unfold blen in H.
  replace (N.to_nat (N.of_nat (length a) + N.of_nat (length src))) with (length a + length m)%nat by lia.
  rewrite skipn_app, skipn_all2 by lia. cbn [app].
  replace (length a + length m - length a)%nat with (length m) by lia.
  rewrite skipn_app, skipn_all, Nat.sub_diag. reflexivity.
Qed.

(* raw versions agree with the simple ones, for every junk *)
Lemma buffer_create_raw_eq junk s : buffer_create_raw junk (Some s) (blen s) = lift (buffer_create s).
Proof.
  unfold buffer_create_raw, buffer_create_at, buffer_create. rewrite memread_all.
  destruct (size_ok (blen s)) eqn:E.
  - destruct (proj2 (create_empty_ok junk (blen s)) E) as [b Hb]. rewrite Hb. cbn [lift rbind].
    apply memwrite_all. eapply create_empty_length; eassumption.
  - rewrite (create_empty_none junk _ E). reflexivity.
Qed.
Lemma buffer_copy_raw_eq junk s : buffer_copy_raw junk s = lift (buffer_copy s).
Proof. destruct s as [s|]; cbn [buffer_copy_raw buffer_copy]; [apply buffer_create_raw_eq|reflexivity]. Qed.

Lemma validate_range_eq b start len : start < two64 -> len < two64 ->
  validate_buffer_range (Some b) start len = section_ok b start len.
Proof.
  intros Hs Hl. unfold validate_buffer_range, section_ok, wsub64, wadd64.
  unfold MAX_BUFFER_SIZE, two64 in *.
  destruct ((2147483631 <=? start) || (2147483631 <=? len) || (len =? 0)) eqn:E1.
  - symmetry. destruct (0 <? len) eqn:F1; cbn [andb]; [|reflexivity].
    destruct (len <? 2147483631) eqn:F2; cbn [andb]; [|reflexivity].
    destruct (start + len <=? 2147483631) eqn:F3; cbn [andb]; [lia|reflexivity].
  - rewrite (N.mod_small start) by lia.
    replace (2147483631 + 18446744073709551616 - start)
      with (2147483631 - start + 1 * 18446744073709551616) by lia.
    rewrite N.mod_add by lia. rewrite (N.mod_small (2147483631 - start)) by lia.
    rewrite (N.mod_small (start + len)) by lia.
    destruct (2147483631 - start <? len) eqn:E2.
    + symmetry. apply andb_false_iff. left. apply andb_false_iff. right. lia.
    + destruct (blen b <? start + len) eqn:E3; symmetry.
      * apply andb_false_iff. right. lia.
      * rewrite !andb_true_iff. repeat split; lia.
Qed.

Lemma buffer_copy_section_raw_eq junk b start len : start < two64 -> len < two64 ->
  buffer_copy_section_raw junk (Some b) start len = lift (buffer_copy_section b start len).
Proof.
  intros Hs Hl. unfold buffer_copy_section_raw, buffer_copy_section.
  rewrite (validate_range_eq b start len Hs Hl).
  destruct (section_ok b start len) eqn:E; cbn [negb]; [|reflexivity].
  unfold buffer_create_at.
  unfold section_ok, MAX_BUFFER_SIZE in E.
  assert (Hok : size_ok len = true) by (unfold size_ok, MAX_BUFFER_SIZE; lia).
  destruct (proj2 (create_empty_ok junk len) Hok) as [nb Hnb]. rewrite Hnb. cbn [lift rbind].
  assert (Hr : start + len <= blen b) by lia.
  rewrite memread_ok by lia. cbn [rbind].
  pose proof (slice_blen b start len Hr) as HL.
  rewrite <- HL at 2. apply memwrite_all. rewrite HL. eapply create_empty_length; eassumption.
Qed.

Lemma buffer_concat_raw_eq junk a b :
  blen (obytes a) < two64 -> blen (obytes b) < two64 ->
  buffer_concat_raw junk a b = lift (buffer_concat a b).
Proof.
  destruct a as [x|], b as [y|]; cbn [obytes]; intros Hx Hy; cbn [buffer_concat_raw buffer_concat]; try reflexivity.
  unfold buffer_create, size_ok. rewrite blen_app.
  destruct ((MAX_BUFFER_SIZE <? blen x) || (MAX_BUFFER_SIZE <? blen y)) eqn:E1.
  { destruct ((0 <? blen x + blen y) && (blen x + blen y <=? MAX_BUFFER_SIZE)) eqn:E2; [lia|reflexivity]. }
  unfold wsub64, wadd64, MAX_BUFFER_SIZE, two64 in *.
  rewrite (N.mod_small (blen x)) by lia.
  replace (2147483631 + 18446744073709551616 - blen x)
      with (2147483631 - blen x + 1 * 18446744073709551616) by lia.
  rewrite N.mod_add by lia. rewrite (N.mod_small (2147483631 - blen x)) by lia.
  destruct (2147483631 - blen x <? blen y) eqn:E3.
  { destruct ((0 <? blen x + blen y) && (blen x + blen y <=? 2147483631)) eqn:E2; [lia|reflexivity]. }
  rewrite (N.mod_small (blen x + blen y)) by lia.
  destruct ((0 <? blen x + blen y) && (blen x + blen y <=? 2147483631)) eqn:E2.
  - assert (Hok : size_ok (blen x + blen y) = true) by (unfold size_ok, MAX_BUFFER_SIZE; lia).
    destruct (proj2 (create_empty_ok junk _) Hok) as [nb Hnb]. rewrite Hnb. cbn [lift rbind].
    apply create_empty_length in Hnb.
    assert (Hsplit : exists m z, nb = m ++ z /\ blen m = blen x /\ blen z = blen y).
    { exists (firstn (length x) nb), (skipn (length x) nb). split; [symmetry; apply firstn_skipn|].
      unfold blen in *. rewrite firstn_length, skipn_length. lia. }
    destruct Hsplit as (m & z & -> & Hm & Hz).
    pose proof (memwrite_mid [] m z x Hm) as W1. cbn [app] in W1. rewrite blen_nil in W1.
    rewrite W1. cbn [rbind].
    pose proof (memwrite_mid x z [] y Hz) as W2. rewrite !app_nil_r in W2. exact W2.
  - rewrite create_empty_none; [reflexivity|]. unfold size_ok, MAX_BUFFER_SIZE. lia.
Qed.

Definition total (bufs : list (option bytes)) : N := blen (concat (map obytes bufs)).
Lemma total_cons o bufs : total (o :: bufs) = blen (obytes o) + total bufs.
Proof. unfold total. cbn [map concat]. apply blen_app. Qed.

Lemma concat_count_eq bufs count :
  count <= MAX_BUFFER_SIZE -> Forall (fun o => blen (obytes o) < two64) bufs ->
  concat_count bufs count =
  if count + total bufs <=? MAX_BUFFER_SIZE then Some (count + total bufs) else None.
Proof.
  revert count. induction bufs as [|o bufs IH]; intros count Hc Hall; cbn [concat_count].
  - unfold total. cbn [map concat]. rewrite blen_nil, N.add_0_r.
    destruct (count <=? MAX_BUFFER_SIZE) eqn:E; [reflexivity|lia].
  - inversion Hall as [|? ? Ho Hall']; subst. rewrite total_cons.
    destruct o as [b|]; cbn [obytes] in *.
    + destruct (blen b =? 0) eqn:E0.
      * rewrite IH by assumption. replace (blen b) with 0 by lia. rewrite N.add_0_l. reflexivity.
      * unfold wsub64, wadd64, MAX_BUFFER_SIZE, two64 in *.
        rewrite (N.mod_small count) by lia.
        replace (2147483631 + 18446744073709551616 - count)
          with (2147483631 - count + 1 * 18446744073709551616) by lia.
        rewrite N.mod_add by lia. rewrite (N.mod_small (2147483631 - count)) by lia.
        destruct ((2147483631 <? blen b) || (2147483631 - count <? blen b)) eqn:E1.
        { destruct (count + (blen b + total bufs) <=? 2147483631) eqn:E2; [lia|reflexivity]. }
        rewrite (N.mod_small (count + blen b)) by lia.
        rewrite IH by (assumption || lia). rewrite N.add_assoc. reflexivity.
    + rewrite IH by assumption. rewrite blen_nil, N.add_0_l. reflexivity.
Qed.

Lemma concat_fill_eq bufs done rest :
  blen rest = total bufs -> blen done + total bufs <= MAX_BUFFER_SIZE ->
  concat_fill bufs (done ++ rest) (blen done) = Val (done ++ concat (map obytes bufs)).
Proof.
  revert done rest. induction bufs as [|o bufs IH]; intros done rest Hr Hm; cbn [concat_fill].
  - unfold total in Hr. cbn [map concat] in Hr |- *. rewrite blen_nil in Hr.
    apply blen_0 in Hr. subst. reflexivity.
  - rewrite total_cons in *. cbn [map concat].
    destruct o as [b|]; cbn [obytes] in *.
    + destruct (blen b =? 0) eqn:E0.
      * assert (b = []) by (apply blen_0; lia). subst. cbn [app].
        rewrite blen_nil in Hr, Hm. apply IH; lia.
      * assert (Hs : exists m z, rest = m ++ z /\ blen m = blen b /\ blen z = total bufs).
        { exists (firstn (length b) rest), (skipn (length b) rest).
          split; [symmetry; apply firstn_skipn|].
          unfold blen in *. rewrite firstn_length, skipn_length. lia. }
        destruct Hs as (m & z & -> & Hm1 & Hz).
        rewrite (memwrite_mid done m z b Hm1). cbn [rbind].
        rewrite app_assoc. unfold wadd64. rewrite N.mod_small.
        2:{ unfold MAX_BUFFER_SIZE, two64 in *. lia. }
        rewrite <- blen_app.
        rewrite IH; [rewrite app_assoc; reflexivity|assumption|rewrite blen_app; lia].
    + rewrite blen_nil in Hr, Hm. cbn [app]. apply IH; lia.
Qed.

Lemma buffer_concat_multi_raw_eq junk bufs :
  Forall (fun o => blen (obytes o) < two64) bufs ->
  buffer_concat_multi_raw junk bufs = lift (buffer_concat_multi bufs).
Proof.
  intros Hall. unfold buffer_concat_multi_raw, buffer_concat_multi.
  destruct bufs as [|o bufs]; [reflexivity|]. set (l := o :: bufs) in *.
  rewrite concat_count_eq by (assumption || (unfold MAX_BUFFER_SIZE; lia)).
  rewrite N.add_0_l. unfold buffer_create, size_ok. fold (total l).
  destruct (total l <=? MAX_BUFFER_SIZE) eqn:E.
  - cbn [lift rbind]. destruct (0 <? total l) eqn:E0; cbn [andb].
    + assert (Hok : size_ok (total l) = true) by (unfold size_ok; lia).
      destruct (proj2 (create_empty_ok junk _) Hok) as [nb Hnb]. rewrite Hnb. cbn [lift rbind].
      apply create_empty_length in Hnb.
      pose proof (concat_fill_eq l [] nb Hnb) as F. cbn [app] in F. rewrite blen_nil in F.
      apply F. lia.
    + rewrite create_empty_none; [reflexivity|]. unfold size_ok. lia.
  - cbn [lift rbind]. rewrite andb_false_r. reflexivity.
Qed.

Lemma buffer_modify_section_raw_eq b src start len : start < two64 -> len < two64 ->
  buffer_modify_section_raw (Some b) (Some src) start len =
  if section_ok b start len
  then if len <=? blen src
       then Val (firstn (N.to_nat start) b ++ firstn (N.to_nat len) src ++ skipn (N.to_nat (start + len)) b)
       else UB
  else Null.
Proof.
  intros Hs Hl. unfold buffer_modify_section_raw. rewrite (validate_range_eq b start len Hs Hl).
  destruct (section_ok b start len) eqn:E; cbn [negb]; [|reflexivity].
  unfold memwrite, memread. rewrite N.add_0_l.
  destruct (len <=? blen src) eqn:E1; cbn [rbind]; [|reflexivity].
  unfold section_ok in E. destruct (start + len <=? blen b) eqn:E2; [|lia]. reflexivity.
Qed.

(* facts about the simple versions, used everywhere *)
Lemma buffer_create_Some s b : buffer_create s = Some b <-> b = s /\ size_ok (blen s) = true.
Proof.
  unfold buffer_create. destruct (size_ok (blen s)); split.
  - intros [= <-]. auto.
  - intros [-> _]. reflexivity.
  - discriminate.
  - intros [_ H]. discriminate.
Qed.
Lemma buffer_create_ok s : size_ok (blen s) = true -> buffer_create s = Some s.
Proof. intros H. apply buffer_create_Some. auto. Qed.
Lemma size_ok_nonempty s : size_ok (blen s) = true -> s <> [].
Proof. intros H ->. discriminate. Qed.
Lemma copy_section_app a m z start len :
  start = blen a -> len = blen m -> 0 < len -> len < MAX_BUFFER_SIZE -> start + len <= MAX_BUFFER_SIZE ->
  buffer_copy_section (a ++ m ++ z) start len = Some m.
Proof.
  intros -> -> H1 H2 H3. unfold buffer_copy_section.
  assert (E : section_ok (a ++ m ++ z) (blen a) (blen m) = true).
  { unfold section_ok. rewrite !blen_app. lia. }
  rewrite E. f_equal. unfold blen. rewrite !Nat2N.id. apply slice_app_mid.
Qed.
Lemma copy_section_Some b start len r : buffer_copy_section b start len = Some r ->
  r = slice b (N.to_nat start) (N.to_nat len) /\ blen r = len /\ section_ok b start len = true.
Proof.
  unfold buffer_copy_section. destruct (section_ok b start len) eqn:E; [|discriminate].
  intros [= <-]. split; [reflexivity|]. split; [|reflexivity].
  apply slice_blen. unfold section_ok in E. lia.
Qed.
