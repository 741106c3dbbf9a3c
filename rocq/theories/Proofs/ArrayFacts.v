From Verif.Base Require Import Bytes.
From Verif.Model Require Import Buffer Array.
From Verif.Spec Require Import ArraySpec.
From Verif.Proofs Require Import BytesFacts BufferFacts.
From Coq Require Import ZifyBool ZifyNat ZifyN Permutation.
Ltac Zify.zify_post_hook ::= Z.div_mod_to_equations.
Local Open Scope N_scope.

Section A.
Context {V : Type}.
Notation world := (world V).
Notation cnt p l := (count_occ N.eq_dec l p).
Definition nz (p : N) : list N := if p =? 0 then [] else [p].
Definition nzl (ps : list N) : list N := flat_map nz ps.
Definition live (w : world) (p : N) : bool := isome (w_obj w p).

Definition rel_item (w : world) (p : N) (ov : option V) : Prop :=
  match ov with None => p = 0 | Some v => p <> 0 /\ w_obj w p = Some v end.
Definition ptr_bytes (ps : list N) : bytes := flat_map (le_enc 8) ps.
Definition arr_ps (a : arr) (ps : list N) : Prop :=
  a_size a = N.of_nat (length ps) /\ 8 * N.of_nat (length ps) <= MAX_BUFFER_SIZE /\
  a_store a = (match ps with [] => None | _ => Some (ptr_bytes ps) end) /\
  Forall (fun p => p < two64) ps.
Definition rel_arr (w : world) (oa : option arr) (ps : list N) (ova : option (list (option V))) : Prop :=
  match oa, ova with
  | None, None => ps = []
  | Some a, Some va => arr_ps a ps /\ Forall2 (rel_item w) ps va
  | _, _ => False
  end.
Record Inv (w : world) (extra : list N) (arrs : list (option arr)) (pss : list (list N)) (sp : sp_state (V:=V)) : Prop := {
  inv_len1 : length pss = length arrs;
  inv_len2 : length sp = length arrs;
  inv_rel : forall h, rel_arr w (hget arrs h) (nth h pss []) (sp_arr sp h);
  inv_cnt : forall p, p <> 0 -> (cnt p extra + cnt p (concat pss))%nat = if live w p then 1%nat else 0%nat;
  inv_0 : w_obj w 0 = None;
  inv_lt : forall p, live w p = true -> p < w_next w;
  inv_next : 1 <= w_next w }.

(* ---- lists ---- *)
Lemma replace_hset {A} (l : list A) h x : replace_nth l h x = hset l h x.
Proof. revert h. induction l as [|y l IH]; intros [|h]; cbn; [reflexivity..|rewrite IH; reflexivity]. Qed.
Lemma hset_length {A} (l : list A) h x : length (hset l h x) = length l.
Proof. revert h. induction l as [|y l IH]; intros [|h]; cbn [hset length]; try reflexivity. rewrite IH. reflexivity. Qed.
Lemma nth_hset {A} (l : list A) h x d k : (h < length l)%nat ->
  nth k (hset l h x) d = if Nat.eqb k h then x else nth k l d.
Proof.
  revert h k. induction l as [|y l IH]; intros h k Hh; cbn [length] in Hh; [lia|].
  destruct h as [|h], k as [|k]; cbn [hset nth Nat.eqb]; try reflexivity. apply IH. lia.
Qed.
Lemma hset_same {A} (l : list A) h x d : (h < length l)%nat -> nth h l d = x -> hset l h x = l.
Proof.
  revert h. induction l as [|y l IH]; intros [|h] Hh Hx; cbn in *; try lia; [rewrite Hx; reflexivity|].
  rewrite IH; [reflexivity|lia|exact Hx].
Qed.
Lemma hset_oob {A} (l : list A) h x : (length l <= h)%nat -> hset l h x = l.
Proof. revert h. induction l as [|y l IH]; intros [|h] Hh; cbn in *; try lia; [reflexivity..|]. rewrite IH by lia. reflexivity. Qed.
Lemma hset_hset {A} (l : list A) h x y : hset (hset l h x) h y = hset l h y.
Proof. revert h. induction l as [|z l IH]; intros [|h]; cbn [hset]; try reflexivity. rewrite IH. reflexivity. Qed.
Lemma hset_app_last {A} (l : list A) x y : hset (l ++ [x]) (length l) y = l ++ [y].
Proof. induction l as [|z l IH]; cbn [app length hset]; [reflexivity|]. rewrite IH. reflexivity. Qed.
Lemma cnt_hset l i p q : (i < length l)%nat ->
  (cnt p (hset l i q) + (if (nth i l 0%N =? p)%N then 1 else 0) = cnt p l + (if (q =? p)%N then 1 else 0))%nat.
Proof.
  revert i. induction l as [|y l IH]; intros i Hi; cbn [length] in Hi; [lia|].
  destruct i as [|i]; cbn [hset nth count_occ].
  - destruct (N.eq_dec q p), (N.eq_dec y p), (N.eqb_spec y p), (N.eqb_spec q p); subst; try lia; try contradiction.
  - specialize (IH i). destruct (N.eq_dec y p); lia.
Qed.
Lemma cnt_concat_hset pss h ps p : (h < length pss)%nat ->
  (cnt p (concat (hset pss h ps)) + cnt p (nth h pss []) = cnt p (concat pss) + cnt p ps)%nat.
Proof.
  revert h. induction pss as [|y l IH]; intros h Hh; cbn [length] in Hh; [lia|].
  destruct h as [|h]; cbn [hset nth concat]; rewrite !count_occ_app; [lia|]. specialize (IH h). lia.
Qed.
Lemma cnt_nz p q : p <> 0 -> cnt p (nz q) = if q =? p then 1%nat else 0%nat.
Proof.
  intros Hp. unfold nz. destruct (N.eqb_spec q 0).
  - subst. destruct (N.eqb_spec 0 p); [congruence|reflexivity].
  - cbn [count_occ]. destruct (N.eq_dec q p), (N.eqb_spec q p); subst; try lia; try contradiction.
Qed.
Lemma cnt_nzl p ps : p <> 0 -> cnt p (nzl ps) = cnt p ps.
Proof.
  intros Hp. induction ps as [|q ps IH]; [reflexivity|].
  unfold nzl in *. cbn [flat_map]. rewrite count_occ_app, IH, cnt_nz by exact Hp. cbn [count_occ].
  destruct (N.eq_dec q p), (N.eqb_spec q p); try lia; contradiction.
Qed.
Lemma cnt_in p l : In p l -> (1 <= cnt p l)%nat.
Proof. intros H. apply (count_occ_In N.eq_dec) in H. lia. Qed.
Lemma in_nth_concat h pss (p : N) : In p (nth h pss []) -> In p (concat pss).
Proof.
  intros H. apply in_concat. exists (nth h pss []). split; [|exact H].
  destruct (Nat.lt_ge_cases h (length pss)) as [Hl|Hl]; [apply nth_In; exact Hl|].
  rewrite nth_overflow in H by exact Hl. destruct H.
Qed.

(* ---- frames ---- *)
Lemma rel_item_frame w w' p ov : (p <> 0 -> w_obj w' p = w_obj w p) -> rel_item w p ov -> rel_item w' p ov.
Proof. intros H. destruct ov as [v|]; cbn; [|auto]. intros [Hp Hv]. split; [exact Hp|]. rewrite H; assumption. Qed.
Lemma rel_arr_frame w w' oa ps ova : (forall p, In p ps -> p <> 0 -> w_obj w' p = w_obj w p) ->
  rel_arr w oa ps ova -> rel_arr w' oa ps ova.
Proof.
  intros H. destruct oa as [a|], ova as [va|]; cbn; auto. intros [Ha Hf]. split; [exact Ha|].
  clear Ha. induction Hf as [|p ov ps va Hr Hf IH]; constructor.
  - eapply rel_item_frame; [|exact Hr]. intros Hp. apply H; [left; reflexivity|exact Hp].
  - apply IH. intros q Hq. apply H. right. exact Hq.
Qed.

Lemma inv_extra_perm w e1 e2 arrs pss sp : (forall p, p <> 0 -> cnt p e1 = cnt p e2) ->
  Inv w e1 arrs pss sp -> Inv w e2 arrs pss sp.
Proof. intros H I. destruct I. constructor; auto. intros p Hp. rewrite <- H by exact Hp. auto. Qed.

Lemma destroy_inv w p extra arrs pss sp : p <> 0 -> Inv w (p :: extra) arrs pss sp ->
  exists w', item_destroy w p = Val w' /\ w_next w' = w_next w /\ Inv w' extra arrs pss sp.
Proof.
  intros Hp I. pose proof (inv_cnt _ _ _ _ _ I p Hp) as C. cbn [count_occ] in C.
  destruct (N.eq_dec p p) as [_|]; [|congruence].
  unfold item_destroy. destruct (w_obj w p) as [v|] eqn:E; [|unfold live in C; rewrite E in C; cbn in C; lia].
  assert (L : live w p = true) by (unfold live; rewrite E; reflexivity). rewrite L in C.
  exists (w_set w p None). split; [reflexivity|]. split; [reflexivity|].
  assert (F : forall q, q <> p -> w_obj (w_set w p None) q = w_obj w q).
  { intros q Hq. cbn. destruct (N.eqb_spec q p); [contradiction|reflexivity]. }
  destruct I as [I1 I2 I3 I4 I5 I6 I7]. constructor; auto.
  - intros h. eapply rel_arr_frame; [|apply I3]. intros q Hin Hq. apply F. intros ->.
    apply in_nth_concat in Hin. apply cnt_in in Hin. lia.
  - intros q Hq. unfold live in *. destruct (N.eq_dec q p) as [->|Hn].
    + cbn. rewrite N.eqb_refl. cbn. lia.
    + rewrite F by exact Hn. rewrite <- I4 by exact Hq. cbn [count_occ]. destruct (N.eq_dec p q); [congruence|reflexivity].
  - cbn. destruct (0 =? p); [reflexivity|exact I5].
  - intros q. unfold live. cbn. destruct (q =? p); [discriminate|]. apply I6.
Qed.

Lemma new_inv w v extra arrs pss sp : Inv w extra arrs pss sp ->
  let w' := fst (item_new w v) in let p := snd (item_new w v) in
  p <> 0 /\ p = w_next w /\ w_next w' = w_next w + 1 /\ w_obj w' p = Some v /\
  (forall q, live w q = true -> w_obj w' q = w_obj w q) /\
  Inv w' (p :: extra) arrs pss sp.
Proof.
  intros I. cbn. destruct I as [I1 I2 I3 I4 I5 I6 I7].
  assert (N0 : live w (w_next w) = false).
  { destruct (live w (w_next w)) eqn:E; [|reflexivity]. apply I6 in E. lia. }
  split; [lia|]. split; [reflexivity|]. split; [reflexivity|].
  split; [rewrite N.eqb_refl; reflexivity|].
  assert (F : forall q, live w q = true -> (if q =? w_next w then Some v else w_obj w q) = w_obj w q).
  { intros q Hq. apply I6 in Hq. destruct (N.eqb_spec q (w_next w)); [lia|reflexivity]. }
  split; [exact F|].
  constructor; auto.
  - intros h. eapply rel_arr_frame; [|apply I3]. intros q Hin Hq. cbn. apply F.
    apply in_nth_concat in Hin. apply cnt_in in Hin. specialize (I4 q Hq). destruct (live w q); [reflexivity|lia].
  - intros q Hq. cbn [count_occ]. unfold live. cbn.
    destruct (N.eq_dec (w_next w) q) as [<-|Hn].
    + rewrite N.eqb_refl. cbn. specialize (I4 _ Hq). rewrite N0 in I4. lia.
    + destruct (N.eqb_spec q (w_next w)); [congruence|]. apply I4. exact Hq.
  - cbn. destruct (N.eqb_spec 0 (w_next w)); [lia|exact I5].
  - intros q. unfold live. cbn. destruct (N.eqb_spec q (w_next w)); [lia|]. intros H.
    specialize (I6 q H). lia.
  - cbn. lia.
Qed.

(* ---- store access ---- *)
Lemma ptr_bytes_length ps : blen (ptr_bytes ps) = 8 * N.of_nat (length ps).
Proof. induction ps as [|p ps IH]; [reflexivity|]. unfold ptr_bytes in *. cbn [flat_map]. rewrite blen_app, IH. cbn [length]. change (blen (le_enc 8 p)) with 8. lia. Qed.
Lemma ptr_bytes_split ps i : (i < length ps)%nat ->
  ptr_bytes ps = ptr_bytes (firstn i ps) ++ le_enc 8 (nth i ps 0) ++ ptr_bytes (skipn (S i) ps).
Proof.
  revert i. induction ps as [|p ps IH]; intros i Hi; cbn [length] in Hi; [lia|].
  destruct i as [|i]; [reflexivity|]. cbn [firstn nth skipn]. unfold ptr_bytes in *. cbn [flat_map].
  rewrite <- app_assoc. f_equal. apply IH. lia.
Qed.
Lemma hset_split {A} (l : list A) i x : (i < length l)%nat -> hset l i x = firstn i l ++ x :: skipn (S i) l.
Proof.
  revert i. induction l as [|p ps IH]; intros i Hi; cbn [length] in Hi; [lia|].
  destruct i as [|i]; [reflexivity|]. cbn [hset firstn skipn app]. f_equal. apply IH. lia.
Qed.

Lemma pointer_ok a ps i : arr_ps a ps -> array_pointer_to_index (Some a) i = Val (nth (N.to_nat i) ps 0).
Proof.
  intros (H1 & H2 & H3 & H4). unfold array_pointer_to_index. rewrite H1.
  destruct (N.of_nat (length ps) <=? i) eqn:E.
  - rewrite nth_overflow by lia. reflexivity.
  - rewrite H3. destruct ps as [|p ps']; [cbn in E; lia|]. set (ps := p :: ps') in *.
    assert (Hi : (N.to_nat i < length ps)%nat) by lia.
    rewrite (ptr_bytes_split ps _ Hi).
    assert (HL : blen (ptr_bytes (firstn (N.to_nat i) ps)) = 8 * i).
    { rewrite ptr_bytes_length, firstn_length. lia. }
    unfold memread. rewrite !blen_app, HL. change (blen (le_enc 8 (nth (N.to_nat i) ps 0))) with 8.
    destruct (8 * i + 8 <=? _) eqn:E2; [|lia]. cbn [rbind]. f_equal.
    replace (N.to_nat (8 * i)) with (length (ptr_bytes (firstn (N.to_nat i) ps))) by (unfold blen in HL; lia).
    change (N.to_nat 8) with (length (le_enc 8 (nth (N.to_nat i) ps 0))).
    rewrite slice_app_mid. apply le64_dec_enc.
    rewrite Forall_forall in H4. apply H4. apply nth_In. exact Hi.
Qed.
Lemma store_ok a ps i q : arr_ps a ps -> (N.to_nat i < length ps)%nat -> q < two64 ->
  exists b', buffer_modify_section_raw (a_store a) (Some (le_enc 8 q)) ((i * 8) mod two64) 8 = Val b' /\
    arr_ps {| a_size := a_size a; a_store := Some b' |} (hset ps (N.to_nat i) q).
Proof.
  intros (H1 & H2 & H3 & H4) Hi Hq. rewrite H3. destruct ps as [|p ps']; [cbn in Hi; lia|]. set (ps := p :: ps') in *.
  unfold MAX_BUFFER_SIZE in H2.
  assert (Hm : (i * 8) mod two64 = 8 * i) by (unfold two64; rewrite N.mod_small; lia). rewrite Hm.
  rewrite buffer_modify_section_raw_eq; [|unfold two64; lia|reflexivity].
  assert (Hok : section_ok (ptr_bytes ps) (8 * i) 8 = true).
  { unfold section_ok, MAX_BUFFER_SIZE. rewrite ptr_bytes_length. lia. }
  rewrite Hok. change (8 <=? blen (le_enc 8 q)) with true. cbn match.
  eexists. split; [reflexivity|].
  assert (HL : length (ptr_bytes (firstn (N.to_nat i) ps)) = N.to_nat (8 * i)).
  { pose proof (ptr_bytes_length (firstn (N.to_nat i) ps)) as X. unfold blen in X. rewrite firstn_length in X. lia. }
  assert (E : (firstn (N.to_nat (8 * i)) (ptr_bytes ps) ++ firstn (N.to_nat 8) (le_enc 8 q) ++ skipn (N.to_nat (8 * i + 8)) (ptr_bytes ps))%list
    = ptr_bytes (hset ps (N.to_nat i) q)).
  { assert (F1 : firstn (N.to_nat (8 * i)) (ptr_bytes ps) = ptr_bytes (firstn (N.to_nat i) ps)).
    { rewrite (ptr_bytes_split ps _ Hi) at 1. apply firstn_app_l. exact HL. }
    assert (F2 : skipn (N.to_nat (8 * i + 8)) (ptr_bytes ps) = ptr_bytes (skipn (S (N.to_nat i)) ps)).
    { rewrite (ptr_bytes_split ps _ Hi) at 1. rewrite app_assoc. apply skipn_app_l.
      rewrite app_length, HL. change (length (le_enc 8 (nth (N.to_nat i) ps 0))) with 8%nat. lia. }
    rewrite F1, F2.
    rewrite hset_split by exact Hi. unfold ptr_bytes. rewrite flat_map_app. cbn [flat_map].
    reflexivity. }
  rewrite E. unfold arr_ps. cbn [a_size a_store]. rewrite hset_length. split; [exact H1|].
  split; [unfold MAX_BUFFER_SIZE; exact H2|]. split.
  - destruct (hset ps (N.to_nat i) q) eqn:Eh; [|reflexivity].
    apply (f_equal (@length N)) in Eh. rewrite hset_length in Eh. discriminate.
  - apply Forall_forall. intros x Hx. rewrite hset_split in Hx by exact Hi.
    rewrite Forall_forall in H4. apply in_app_or in Hx. destruct Hx as [Hx|[<-|Hx]].
    + apply H4. rewrite <- (firstn_skipn (N.to_nat i)). apply in_or_app. left. exact Hx.
    + exact Hq.
    + apply H4. rewrite <- (firstn_skipn (S (N.to_nat i))). apply in_or_app. right. exact Hx.
Qed.

Lemma rel_length w a ps va : rel_arr w (Some a) ps (Some va) -> length ps = length va.
Proof. intros [_ H]. induction H; cbn [length]; [reflexivity|lia]. Qed.
Lemma Forall2_hset {A B} (R : A -> B -> Prop) l1 l2 i x y : Forall2 R l1 l2 -> R x y -> Forall2 R (hset l1 i x) (hset l2 i y).
Proof. intros H Hxy. revert i. induction H as [|a b l1 l2 Hab Hl IH]; intros [|i]; cbn [hset]; constructor; auto. Qed.
Lemma Forall2_nth w ps va i : Forall2 (rel_item w) ps va -> rel_item w (nth i ps 0) (nth i va None).
Proof. intros H. revert i. induction H as [|a b l1 l2 Hab Hl IH]; intros [|i]; cbn [nth]; auto; reflexivity. Qed.

(* put q (already accounted for in extra) in slot (h,i); the old pointer goes to extra *)
Lemma swap_inv w q ov extra arrs pss sp h i a va b' :
  Inv w (nz q ++ extra) arrs pss sp -> hget arrs h = Some a -> sp_arr sp h = Some va ->
  (h < length arrs)%nat -> (i < length va)%nat -> rel_item w q ov ->
  arr_ps {| a_size := a_size a; a_store := Some b' |} (hset (nth h pss []) i q) ->
  Inv w (nz (nth i (nth h pss []) 0) ++ extra)
    (hset arrs h (Some {| a_size := a_size a; a_store := Some b' |}))
    (hset pss h (hset (nth h pss []) i q)) (replace_nth sp h (Some (replace_nth va i ov))).
Proof.
  intros I Ha Hva Hh Hi Hq Hps. pose proof (inv_rel _ _ _ _ _ I h) as R. rewrite Ha, Hva in R.
  pose proof (rel_length _ _ _ _ R) as HL. change (@replace_nth) with (@hset).
  destruct I as [I1 I2 I3 I4 I5 I6 I7]. constructor; auto; try (rewrite !hset_length; auto; fail).
  - intros k. unfold hget, sp_arr. rewrite !nth_hset by (rewrite ?I1, ?I2; exact Hh).
    destruct (Nat.eqb_spec k h) as [->|Hk]; [|apply I3].
    split; [exact Hps|]. apply Forall2_hset; [apply R|exact Hq].
  - intros p Hp. rewrite <- I4 by exact Hp. rewrite !count_occ_app, !cnt_nz by exact Hp.
    pose proof (cnt_concat_hset pss h (hset (nth h pss []) i q) p) as C1. rewrite I1 in C1. specialize (C1 Hh).
    pose proof (cnt_hset (nth h pss []) i p q) as C2. rewrite HL in C2. specialize (C2 Hi). lia.
Qed.

(* array_set_item *)
Lemma item_live w extra arrs pss sp p : Inv w extra arrs pss sp -> p <> 0 ->
  (In p extra \/ In p (concat pss)) -> exists v, w_obj w p = Some v.
Proof.
  intros I Hp Hin. pose proof (inv_cnt _ _ _ _ _ I p Hp) as C.
  assert (1 <= cnt p extra + cnt p (concat pss))%nat by (destruct Hin as [H|H]; apply cnt_in in H; lia).
  unfold live in C. destruct (w_obj w p) as [v|]; [eauto|cbn in C; lia].
Qed.

Lemma set_inv ok w item ov extra arrs pss sp h i : Inv w extra arrs pss sp -> (h < length arrs)%nat ->
  rel_item w item ov -> w_next w + 1 <= two64 ->
  exists w' a' b, array_set_item ok w (hget arrs h) i item true = Val (w', a', b) /\
    (sp_set sp h i ov ok) = (fst (sp_set sp h i ov ok), OutBool b) /\ w_next w' <= w_next w + 1 /\ w_next w <= w_next w' /\
    (forall q, In q extra -> q <> 0 -> w_obj w' q = w_obj w q) /\
    exists pss', Inv w' extra (hset arrs h a') pss' (fst (sp_set sp h i ov ok)).
Proof.
  intros I Hh Hr Hb. unfold sp_set. pose proof (inv_rel _ _ _ _ _ I h) as R.
  destruct (hget arrs h) as [a|] eqn:Ea; cbn [rel_arr] in R.
  2:{ destruct (sp_arr sp h); [contradiction|]. cbn. do 3 eexists. split; [reflexivity|]. cbn [fst].
      split; [reflexivity|]. split; [lia|]. split; [lia|]. split; [reflexivity|]. exists pss.
      rewrite (hset_same arrs h None None) by assumption. exact I. }
  destruct (sp_arr sp h) as [va|] eqn:Eva; [|contradiction]. pose proof (rel_length w a _ va R) as HL.
  destruct R as [Hps Hf]. cbn [array_set_item].
  assert (Hsz : a_size a = N.of_nat (length va)) by (destruct Hps as [-> _]; rewrite HL; reflexivity).
  assert (Same : hset arrs h (Some a) = arrs) by (apply (hset_same arrs h (Some a) None); assumption).
  rewrite Hsz. destruct (N.of_nat (length va) <=? i) eqn:Ei.
  { destruct (i <? N.of_nat (length va)) eqn:Ei'; [lia|]. cbn [andb fst].
    do 3 eexists. split; [reflexivity|]. split; [reflexivity|]. split; [lia|]. split; [lia|]. split; [reflexivity|].
    exists pss. rewrite Same. exact I. }
  destruct (i <? N.of_nat (length va)) eqn:Ei'; [|lia]. cbn [andb].
  assert (Hil : (N.to_nat i < length va)%nat) by lia.
  (* after the copy: world w1, pointer q in extra *)
  assert (Copy : (match ov with Some _ => ok | None => true end) = true ->
    exists w1 q, (if item =? 0 then Val (w, 0) else item_copy ok w item) = Val (w1, q) /\
      (negb (item =? 0) && (q =? 0))%bool = false /\ rel_item w1 q ov /\ q < two64 /\
      w_next w <= w_next w1 <= w_next w + 1 /\ (forall q', In q' extra -> q' <> 0 -> w_obj w1 q' = w_obj w q') /\
      Inv w1 (nz q ++ extra) arrs pss sp).
  { intros Hok. destruct ov as [v|]; cbn in Hr.
    - destruct Hr as [Hi0 Hiv]. destruct (N.eqb_spec item 0) as [|_]; [contradiction|].
      unfold item_copy. rewrite Hiv, Hok.
      destruct (new_inv w v extra arrs pss sp I) as (Q1 & Q2 & Q3 & Q4 & Q5 & Q6).
      destruct (item_new w v) as [w1 q]. cbn [fst snd] in *. exists w1, q.
      split; [reflexivity|]. split; [destruct (N.eqb_spec q 0); [contradiction|reflexivity]|].
      split; [split; assumption|]. split; [lia|]. split; [lia|]. split.
      + intros q' Hq' Hq0. apply Q5. destruct (item_live _ _ _ _ _ q' I Hq0 (or_introl Hq')) as [v' Hv']. unfold live. rewrite Hv'. reflexivity.
      + unfold nz. destruct (N.eqb_spec q 0); [contradiction|]. exact Q6.
    - subst item. exists w, 0. cbn. split; [reflexivity|]. split; [reflexivity|]. split; [reflexivity|].
      split; [unfold two64; lia|]. split; [lia|]. split; [reflexivity|]. exact I. }
  destruct (match ov with Some _ => ok | None => true end) eqn:Eok.
  - destruct (Copy eq_refl) as (w1 & q & E1 & E2 & Hq & Hq64 & Hn & Hfr & I1). rewrite E1. cbn [rbind fst snd].
    rewrite E2. rewrite (pointer_ok a _ i Hps). cbn [rbind]. set (old := nth (N.to_nat i) (nth h pss []) 0).
    destruct (store_ok a _ i q Hps) as (b' & Hb' & Hps'); [rewrite HL; exact Hil|exact Hq64|].
    rewrite Hb'.
    pose proof (swap_inv w1 q ov extra arrs pss sp h (N.to_nat i) a va b' I1 Ea Eva Hh Hil Hq Hps') as I2. fold old in I2. rewrite Hsz in I2.
    rewrite andb_true_r. cbn [fst].
    assert (Hold : In old (concat pss) \/ old = 0).
    { destruct (N.eq_dec old 0) as [|Hn0]; [right; assumption|left]. apply (in_nth_concat h). apply nth_In. rewrite HL. exact Hil. }
    destruct (N.eqb_spec old 0) as [E0|E0]; cbn [negb rbind].
    + rewrite E0 in I2. do 3 eexists. split; [reflexivity|]. split; [reflexivity|]. split; [lia|]. split; [lia|]. split; [exact Hfr|].
      eexists. exact I2.
    + unfold nz in I2. destruct (N.eqb_spec old 0) as [|_]; [contradiction|]. cbn [app] in I2.
      destruct (destroy_inv w1 old extra _ _ _ E0 I2) as (w2 & Hd & Hn2 & I3). rewrite Hd. cbn [rbind].
      do 3 eexists. split; [reflexivity|]. split; [reflexivity|]. split; [lia|]. split; [lia|]. split.
      * intros q' Hq' Hq0. rewrite <- Hfr by assumption. unfold item_destroy in Hd.
        destruct (w_obj w1 old); [|discriminate]. injection Hd as <-. cbn.
        destruct (N.eqb_spec q' old) as [->|]; [|reflexivity]. exfalso.
        destruct Hold as [Hold|]; [|contradiction].
        pose proof (inv_cnt _ _ _ _ _ I old E0) as C. apply cnt_in in Hold. apply cnt_in in Hq'.
        destruct (live w old); lia.
      * eexists. exact I3.
  - destruct ov as [v|]; [|discriminate]. subst ok. destruct Hr as [Hi0 Hiv].
    destruct (N.eqb_spec item 0) as [|_]; [contradiction|]. unfold item_copy. rewrite Hiv. cbn [rbind fst snd negb andb].
    do 3 eexists. split; [reflexivity|]. split; [reflexivity|]. split; [lia|]. split; [lia|]. split; [reflexivity|].
    exists pss. cbn [fst]. rewrite Same. exact I.
Qed.

(* new arrays *)
Lemma map_const_repeat {A B} (x : B) k (l : list A) : length l = k -> map (fun _ => x) l = repeat x k.
Proof. intros <-. induction l as [|y l IH]; [reflexivity|]. cbn. rewrite IH. reflexivity. Qed.
Lemma repeat_ptr n : map (fun _ : nat => x00) (seq 0 (8 * n)) = ptr_bytes (repeat 0 n).
Proof.
  replace (ptr_bytes (repeat 0 n)) with (repeat x00 (8 * n)).
  - apply map_const_repeat. apply seq_length.
  - induction n as [|n IH]; [reflexivity|]. replace (8 * S n)%nat with (8 + 8 * n)%nat by lia.
    cbn [repeat Nat.add]. unfold ptr_bytes in *. cbn [flat_map]. rewrite <- IH. reflexivity.
Qed.
Lemma array_new_ok count : count < two32 ->
  array_new count = (if (count =? 0) || (8 * count <=? 2147483631) then array_new count else None) /\
  ((count =? 0) || (8 * count <=? 2147483631) = true ->
     exists a, array_new count = Some a /\ arr_ps a (repeat 0 (N.to_nat count))).
Proof.
  intros Hc. unfold two32 in Hc. unfold array_new. destruct (N.eqb_spec count 0) as [->|H0]; cbn [orb].
  - split; [reflexivity|]. intros _. eexists. split; [reflexivity|]. repeat split; try constructor. discriminate.
  - rewrite N.mod_small by (unfold two64; lia).
    unfold buffer_create_empty_zero, buffer_create_empty, MAX_BUFFER_SIZE.
    destruct (8 * count <=? 2147483631) eqn:E.
    + split; [reflexivity|]. intros _.
      replace ((2147483631 <? 8 * count) || (8 * count =? 0)) with false by lia.
      eexists. split; [reflexivity|]. unfold arr_ps. cbn [a_size a_store]. rewrite repeat_length.
      split; [lia|]. split; [unfold MAX_BUFFER_SIZE; lia|]. split.
      * replace (N.to_nat (8 * count)) with (8 * N.to_nat count)%nat by lia. rewrite repeat_ptr.
        destruct (N.to_nat count) eqn:En; [lia|]. reflexivity.
      * apply Forall_forall. intros x Hx. apply repeat_spec in Hx. subst. reflexivity.
    + split; [|discriminate]. replace ((2147483631 <? 8 * count) || (8 * count =? 0)) with true by lia. reflexivity.
Qed.
Lemma concat_app1 {A} (l : list (list A)) x : concat (l ++ [x]) = concat l ++ x.
Proof. rewrite concat_app. cbn. rewrite app_nil_r. reflexivity. Qed.
Lemma nth_app_last {A} (l : list A) x d k : nth k (l ++ [x]) d = if Nat.eqb k (length l) then x else nth k l d.
Proof.
  destruct (Nat.eqb_spec k (length l)) as [->|H].
  - rewrite app_nth2, Nat.sub_diag by lia. reflexivity.
  - destruct (Nat.lt_ge_cases k (length l)); [apply app_nth1; lia|].
    rewrite !nth_overflow; [reflexivity|lia|rewrite app_length; cbn; lia].
Qed.
Lemma push_inv w extra arrs pss sp oa ps ova : Inv w extra arrs pss sp ->
  rel_arr w oa ps ova -> (forall p, p <> 0 -> cnt p ps = 0%nat) ->
  Inv w extra (arrs ++ [oa]) (pss ++ [ps]) (sp ++ [ova]).
Proof.
  intros [I1 I2 I3 I4 I5 I6 I7] Hr Hc. constructor; auto; rewrite ?app_length; cbn [length]; try lia.
  - intros h. unfold hget, sp_arr. rewrite !nth_app_last, I1, I2. destruct (Nat.eqb h (length arrs)); [exact Hr|apply I3].
  - intros p Hp. rewrite concat_app1, count_occ_app, Hc by exact Hp. rewrite Nat.add_0_r. apply I4. exact Hp.
Qed.
Lemma cnt_repeat0 p n : p <> 0 -> cnt p (repeat 0 n) = 0%nat.
Proof. intros Hp. induction n; cbn [repeat count_occ]; [reflexivity|]. destruct (N.eq_dec 0 p); [congruence|exact IHn]. Qed.
Lemma rel_repeat w n : Forall2 (rel_item w) (repeat 0 n) (repeat None n).
Proof. induction n; cbn; constructor; [reflexivity|assumption]. Qed.

(* destroy *)
Lemma drop_inv w extra arrs pss sp h : Inv w extra arrs pss sp -> (h < length arrs)%nat ->
  Inv w (nzl (nth h pss []) ++ extra) (hset arrs h None) (hset pss h []) (replace_nth sp h None).
Proof.
  intros [I1 I2 I3 I4 I5 I6 I7] Hh. change (@replace_nth) with (@hset). constructor; auto; try (rewrite !hset_length; auto; fail).
  - intros k. unfold hget, sp_arr. rewrite !nth_hset by (rewrite ?I1, ?I2; exact Hh).
    destruct (Nat.eqb_spec k h) as [->|Hk]; [reflexivity|apply I3].
  - intros p Hp. rewrite <- I4 by exact Hp. rewrite count_occ_app, cnt_nzl by exact Hp.
    pose proof (cnt_concat_hset pss h [] p) as C. rewrite I1 in C. specialize (C Hh). cbn [count_occ] in C. lia.
Qed.
Lemma destroy_loop_inv a ps extra arrs pss sp : arr_ps a ps ->
  forall n i w, (N.to_nat i + n = length ps)%nat ->
  Inv w (nzl (skipn (N.to_nat i) ps) ++ extra) arrs pss sp ->
  exists w', destroy_loop n i w (Some a) = Val w' /\ w_next w' = w_next w /\ Inv w' extra arrs pss sp.
Proof.
  intros Hps. induction n as [|n IH]; intros i w Hn I.
  - exists w. split; [reflexivity|]. split; [reflexivity|]. rewrite skipn_all2 in I by lia. exact I.
  - cbn [destroy_loop]. rewrite (pointer_ok a ps i Hps). cbn [rbind].
    assert (Es : skipn (N.to_nat i) ps = nth (N.to_nat i) ps 0 :: skipn (N.to_nat (i + 1)) ps).
    { replace (N.to_nat (i + 1)) with (S (N.to_nat i)) by lia.
      assert (Hlt : (N.to_nat i < length ps)%nat) by lia. clear - Hlt. revert ps Hlt.
      induction (N.to_nat i) as [|k IHk]; intros [|p ps] Hl; cbn [length] in Hl; try lia; [reflexivity|].
      cbn [skipn nth]. rewrite IHk by lia. destruct ps; reflexivity. }
    rewrite Es in I. unfold nzl in I. cbn [flat_map] in I. rewrite <- app_assoc in I. fold (nzl (skipn (N.to_nat (i+1)) ps)) in I.
    set (p := nth (N.to_nat i) ps 0) in *. unfold nz in I. destruct (N.eqb_spec p 0) as [E0|E0]; cbn [app rbind] in *.
    + apply IH; [lia|exact I].
    + destruct (destroy_inv _ _ _ _ _ _ E0 I) as (w1 & -> & Hn1 & I1). cbn [rbind].
      destruct (IH (i + 1) w1) as (w2 & H2 & Hn2 & I2); [lia|exact I1|]. exists w2. rewrite H2. split; [reflexivity|]. split; [lia|exact I2].
Qed.
Lemma destroy_arr_inv w extra arrs pss sp h : Inv w extra arrs pss sp ->
  exists w' pss', array_destroy w (hget arrs h) true = Val w' /\ w_next w' = w_next w /\
    Inv w' extra (hset arrs h None) pss' (replace_nth sp h None).
Proof.
  intros I. destruct (Nat.lt_ge_cases h (length arrs)) as [Hh|Hh].
  - pose proof (inv_rel _ _ _ _ _ I h) as R. pose proof (drop_inv _ _ _ _ _ h I Hh) as D.
    destruct (hget arrs h) as [a|] eqn:Ea; cbn [rel_arr array_destroy] in *.
    + destruct (sp_arr sp h) as [va|]; [|contradiction]. destruct R as [Hps Hf].
      destruct (destroy_loop_inv a _ extra (hset arrs h None) (hset pss h []) (replace_nth sp h None) Hps (N.to_nat (a_size a)) 0 w) as (w' & H1 & H2 & H3).
      { destruct Hps as [-> _]. rewrite Nat2N.id. reflexivity. }
      { exact D. }
      exists w', (hset pss h []). auto.
    + destruct (sp_arr sp h); [contradiction|]. rewrite R in D. cbn in D. exists w, (hset pss h []). auto.
  - unfold hget. rewrite nth_overflow by exact Hh. cbn. exists w, pss.
    change (@replace_nth) with (@hset). rewrite !hset_oob by (rewrite ?(inv_len2 _ _ _ _ _ I); exact Hh). auto.
Qed.

(* deep copy *)
Lemma sp_set_last sp cur i ov ok : (N.to_nat i < length cur)%nat -> (match ov with Some _ => ok | None => true end) = true ->
  sp_set (sp ++ [Some cur]) (length sp) i ov ok = (sp ++ [Some (replace_nth cur (N.to_nat i) ov)], OutBool (V:=V) true).
Proof.
  intros Hi Hok. unfold sp_set, sp_arr. rewrite nth_app_last, Nat.eqb_refl.
  destruct (N.ltb_spec i (N.of_nat (length cur))); [|lia]. cbn [andb].
  change (@replace_nth) with (@hset). rewrite Hok, hset_app_last. reflexivity.
Qed.
Lemma sp_set_last_fail sp cur i v : (N.to_nat i < length cur)%nat ->
  sp_set (sp ++ [Some cur]) (length sp) i (Some v) false = (sp ++ [Some cur], OutBool (V:=V) false).
Proof.
  intros Hi. unfold sp_set, sp_arr. rewrite nth_app_last, Nat.eqb_refl.
  destruct (N.ltb_spec i (N.of_nat (length cur))); [|lia]. reflexivity.
Qed.

Lemma copy_loop_inv oks a va arrs sp h : forall n i w pss c done,
  Inv w [] (arrs ++ [c]) pss (sp ++ [Some (firstn (N.to_nat i) va ++ repeat None n)]) ->
  length sp = length arrs -> (h < length arrs)%nat -> hget arrs h = Some a -> sp_arr sp h = Some va ->
  (N.to_nat i + n = length va)%nat -> w_next w + N.of_nat n <= two64 -> done = w_next w ->
  exists w' c' pss', copy_loop n i oks w (Some a) c true = Val (w', c') /\ w_next w' <= done + N.of_nat n /\
    Inv w' [] (arrs ++ [c']) pss' (sp ++ [if all_ok oks i (skipn (N.to_nat i) va) then Some va else None]) /\
    isome c' = all_ok oks i (skipn (N.to_nat i) va).
Proof.
  induction n as [|n IH]; intros i w pss c done I Hsp Hh Ha Hva Hn Hb ->.
  - cbn [copy_loop]. rewrite skipn_all2 by lia. cbn [all_ok]. rewrite firstn_all2 in I by lia.
    cbn [repeat] in I. rewrite app_nil_r in I. exists w, c, pss. split; [reflexivity|]. split; [lia|]. split; [exact I|].
    pose proof (inv_rel _ _ _ _ _ I (length arrs)) as R. unfold hget, sp_arr in R.
    rewrite !nth_app_last, Hsp, Nat.eqb_refl in R. destruct c; [reflexivity|contradiction].
  - assert (Es : skipn (N.to_nat i) va = nth (N.to_nat i) va None :: skipn (N.to_nat (i + 1)) va).
    { replace (N.to_nat (i + 1)) with (S (N.to_nat i)) by lia.
      assert (Hlt : (N.to_nat i < length va)%nat) by lia. clear - Hlt. revert va Hlt.
      induction (N.to_nat i) as [|k IHk]; intros [|p ps] Hl; cbn [length] in Hl; try lia; [reflexivity|].
      cbn [skipn nth]. rewrite IHk by lia. destruct ps; reflexivity. }
    set (ov := nth (N.to_nat i) va None) in *.
    pose proof (inv_rel _ _ _ _ _ I h) as R. unfold hget, sp_arr in R. rewrite !nth_app_last, Hsp in R.
    destruct (Nat.eqb_spec h (length arrs)) as [|_]; [lia|]. unfold hget in Ha. unfold sp_arr in Hva. rewrite Ha, Hva in R.
    destruct R as [Hps Hf]. cbn [copy_loop]. rewrite (pointer_ok a _ i Hps). cbn [rbind].
    pose proof (Forall2_nth w _ _ (N.to_nat i) Hf) as Hr. fold ov in Hr.
    set (one := nth (N.to_nat i) (nth h pss []) 0) in *.
    set (cur := firstn (N.to_nat i) va ++ repeat None (S n)) in *.
    assert (Hcl : (N.to_nat i < length cur)%nat) by (unfold cur; rewrite app_length, firstn_length, repeat_length; lia).
    destruct (set_inv (oks i) w one ov [] (arrs ++ [c]) pss (sp ++ [Some cur]) (length arrs) i I) as (w' & c' & b & E & Es2 & Hn1 & Hn2 & Hfr & pss' & I').
    { rewrite app_length; cbn; lia. } { exact Hr. } { lia. }
    unfold hget in E. rewrite nth_app_last, Nat.eqb_refl in E. rewrite E. cbn [rbind].
    rewrite hset_app_last in I'. rewrite <- Hsp in I', Es2.
    destruct (match ov with Some _ => oks i | None => true end) eqn:Eok.
    + rewrite sp_set_last in I', Es2 by assumption. cbn [fst] in I', Es2. injection Es2 as <-.
      assert (Ec : hset cur (N.to_nat i) ov = firstn (N.to_nat (i + 1)) va ++ repeat None n).
      { unfold cur. rewrite hset_split by exact Hcl.
        replace (N.to_nat (i + 1)) with (S (N.to_nat i)) by lia.
        rewrite firstn_app_l by (rewrite firstn_length; lia).
        assert (EE : skipn (S (N.to_nat i)) (firstn (N.to_nat i) va ++ repeat None (S n)) = repeat None n).
        { replace (S (N.to_nat i)) with (1 + N.to_nat i)%nat by lia. rewrite <- skipn_skipn.
          rewrite skipn_app_l by (rewrite firstn_length; lia). reflexivity. }
        rewrite EE. assert (EF : firstn (S (N.to_nat i)) va = firstn (N.to_nat i) va ++ [ov]).
        { transitivity (firstn (S (N.to_nat i)) (firstn (N.to_nat i) va ++ skipn (N.to_nat i) va)); [rewrite firstn_skipn; reflexivity|].
          rewrite Es. rewrite firstn_app, firstn_firstn, firstn_length.
          replace (Nat.min (S (N.to_nat i)) (N.to_nat i)) with (N.to_nat i) by lia.
          replace (S (N.to_nat i) - Nat.min (N.to_nat i) (length va))%nat with 1%nat by lia. reflexivity. }
        rewrite EF, <- app_assoc. reflexivity. }
      change (@replace_nth) with (@hset) in I'. rewrite Ec in I'.
      destruct (IH (i + 1) w' pss' c' (w_next w') I' Hsp Hh Ha Hva) as (w2 & c2 & pss2 & E2 & Hn3 & I2 & Hs); [lia|lia|reflexivity|].
      exists w2, c2, pss2. rewrite E2. split; [reflexivity|]. split; [lia|].
      rewrite Es. assert (Eall : all_ok oks i (ov :: skipn (N.to_nat (i + 1)) va) = all_ok oks (i + 1) (skipn (N.to_nat (i + 1)) va)).
      { destruct ov; cbn [all_ok]; [rewrite Eok; reflexivity|reflexivity]. }
      rewrite Eall. split; [exact I2|exact Hs].
    + destruct ov as [v|] eqn:Eov; [|discriminate]. rewrite Eok in I', Es2, E. rewrite sp_set_last_fail in I', Es2 by assumption.
      cbn [fst] in I', Es2. injection Es2 as <-.
      destruct (destroy_arr_inv w' [] (arrs ++ [c']) pss' (sp ++ [Some cur]) (length arrs) I') as (w2 & pss2 & E2 & Hn3 & I2).
      unfold hget in E2. rewrite nth_app_last, Nat.eqb_refl in E2. rewrite E2. cbn [rbind].
      rewrite hset_app_last in I2. change (@replace_nth) with (@hset) in I2. rewrite <- Hsp, hset_app_last in I2.
      exists w2, None, pss2. split; [reflexivity|]. split; [lia|]. rewrite Es. cbn [all_ok]. rewrite Eok. cbn [andb].
      split; [exact I2|reflexivity].
Qed.

(* one step *)
Definition per_op : N := 536870912.
Lemma arr_small w oa ps va : rel_arr w oa ps (Some va) -> 8 * N.of_nat (length va) <= MAX_BUFFER_SIZE.
Proof.
  destruct oa as [a|]; [|contradiction]. intros R. pose proof (rel_length _ _ _ _ R) as HL.
  destruct R as [(_ & H & _) _]. rewrite HL in H. exact H.
Qed.
Lemma fetch_rel w extra arrs pss sp h i : Inv w extra arrs pss sp ->
  exists p, array_pointer_to_index (hget arrs h) i = Val p /\ rel_item w p (sp_item sp h i).
Proof.
  intros I. pose proof (inv_rel _ _ _ _ _ I h) as R. unfold sp_item.
  destruct (hget arrs h) as [a|]; cbn [rel_arr] in R.
  - destruct (sp_arr sp h) as [va|]; [|contradiction]. destruct R as [Hps Hf].
    rewrite (pointer_ok a _ i Hps). eexists. split; [reflexivity|]. apply Forall2_nth. exact Hf.
  - destruct (sp_arr sp h); [contradiction|]. exists 0. split; reflexivity.
Qed.
Lemma sp_set_oob sp h i ov ok : (length sp <= h)%nat -> sp_set sp h i ov ok = (sp, OutBool (V:=V) false).
Proof. intros H. unfold sp_set, sp_arr. rewrite nth_overflow by exact H. reflexivity. Qed.

Lemma step_inv s pss sp o : Inv (s_world s) [] (s_arrs s) pss sp -> op_ok o ->
  w_next (s_world s) + per_op <= two64 ->
  exists s' out pss', astep s o = Val (s', out) /\ sp_step sp o = (fst (sp_step sp o), out) /\
    w_next (s_world s') <= w_next (s_world s) + per_op /\ Inv (s_world s') [] (s_arrs s') pss' (fst (sp_step sp o)).
Proof.
  intros I Hop Hb. destruct s as [w l]. cbn [s_world s_arrs] in *.
  assert (Hb1 : w_next w + 1 <= two64) by (unfold per_op in Hb; lia).
  pose proof (inv_len2 _ _ _ _ _ I) as Hlen.
  destruct o as [count|h i v ok|h i h' j ok|h i|h i ok|h oks|h]; cbn [astep sp_step s_world s_arrs]; cbv beta zeta.
  - cbn [op_ok] in Hop. destruct (array_new_ok count Hop) as [E1 E2].
    destruct ((count =? 0) || (8 * count <=? 2147483631)) eqn:Ec.
    + destruct (E2 eq_refl) as (a & Ea & Hps). rewrite Ea. cbn [fst isome].
      do 2 eexists. exists (pss ++ [repeat 0 (N.to_nat count)]). split; [reflexivity|]. split; [reflexivity|]. split; [cbn; unfold per_op; lia|].
      cbn [s_world s_arrs]. apply push_inv; [exact I|split; [exact Hps|apply rel_repeat]|intros p Hp; apply cnt_repeat0; exact Hp].
    + rewrite E1. cbn [fst isome]. do 2 eexists. exists (pss ++ [[]]). split; [reflexivity|]. split; [reflexivity|]. split; [cbn; unfold per_op; lia|].
      cbn [s_world s_arrs]. apply push_inv; [exact I|reflexivity|reflexivity].
  - destruct (Nat.lt_ge_cases h (length l)) as [Hh|Hh].
    + destruct v as [v|]; cbv beta iota.
      * destruct (new_inv w v [] l pss sp I) as (Q1 & Q2 & Q3 & Q4 & Q5 & Q6).
        destruct (item_new w v) as [w1 p]. cbn [fst snd] in *.
        destruct (set_inv ok w1 p (Some v) [p] l pss sp h i Q6 Hh) as (w' & a' & b & E & Es & Hn1 & Hn2 & Hfr & pss' & I').
        { split; assumption. } { unfold per_op in Hb. lia. }
        rewrite E. cbn [rbind]. destruct (destroy_inv w' p [] _ _ _ Q1 I') as (w2 & Hd & Hn3 & I2). rewrite Hd. cbn [rbind].
        do 2 eexists. exists pss'. split; [reflexivity|]. split; [exact Es|]. cbn [s_world s_arrs]. split; [unfold per_op; lia|exact I2].
      * destruct (set_inv ok w 0 None [] l pss sp h i I Hh) as (w' & a' & b & E & Es & Hn1 & Hn2 & Hfr & pss' & I'); [reflexivity|exact Hb1|].
        rewrite E. cbn [rbind]. do 2 eexists. exists pss'. split; [reflexivity|]. split; [exact Es|]. cbn [s_world s_arrs]. split; [unfold per_op; lia|exact I'].
    + rewrite sp_set_oob by lia. cbn [fst]. unfold hget. rewrite nth_overflow by exact Hh.
      destruct v as [v|]; cbv beta iota.
      * destruct (new_inv w v [] l pss sp I) as (Q1 & Q2 & Q3 & Q4 & Q5 & Q6). destruct (item_new w v) as [w1 p]. cbn [fst snd] in *.
        cbn [array_set_item rbind]. destruct (destroy_inv w1 p [] _ _ _ Q1 Q6) as (w2 & Hd & Hn3 & I2). rewrite Hd. cbn [rbind].
        rewrite hset_oob by exact Hh. do 2 eexists. exists pss. split; [reflexivity|]. split; [reflexivity|]. cbn [s_world s_arrs]. split; [unfold per_op; lia|exact I2].
      * cbn [array_set_item rbind]. rewrite hset_oob by exact Hh. do 2 eexists. exists pss. split; [reflexivity|]. split; [reflexivity|]. cbn [s_world s_arrs]. split; [unfold per_op; lia|exact I].
  - destruct (fetch_rel w [] l pss sp h' j I) as (p & Ep & Hp).
    unfold array_fetch_item. rewrite Ep. cbn [rbind].
    assert (Ef : (if p =? 0 then Val (w, 0) else Val (w, p)) = Val (w, p)) by (destruct (N.eqb_spec p 0) as [->|]; reflexivity).
    rewrite Ef. cbn [rbind fst snd]. destruct (Nat.lt_ge_cases h (length l)) as [Hh|Hh].
    + destruct (set_inv ok w p (sp_item sp h' j) [] l pss sp h i I Hh Hp Hb1) as (w' & a' & b & E & Es & Hn1 & Hn2 & Hfr & pss' & I').
      rewrite E. cbn [rbind]. do 2 eexists. exists pss'. split; [reflexivity|]. split; [exact Es|]. cbn [s_world s_arrs]. split; [unfold per_op; lia|exact I'].
    + rewrite sp_set_oob by lia. unfold hget. rewrite nth_overflow by exact Hh. cbn [array_set_item rbind fst]. rewrite hset_oob by exact Hh.
      do 2 eexists. exists pss. split; [reflexivity|]. split; [reflexivity|]. cbn [s_world s_arrs]. split; [unfold per_op; lia|exact I].
  - destruct (fetch_rel w [] l pss sp h i I) as (p & Ep & Hp).
    unfold array_fetch_item. rewrite Ep. cbn [rbind].
    assert (Ef : (if p =? 0 then Val (w, 0) else Val (w, p)) = Val (w, p)) by (destruct (N.eqb_spec p 0) as [->|]; reflexivity).
    rewrite Ef. cbn [rbind fst snd].
    assert (El : look w p = Val (sp_item sp h i)).
    { unfold look. destruct (sp_item sp h i) as [v|]; cbn in Hp; [|subst; reflexivity]. destruct Hp as [Hp0 ->].
      destruct (N.eqb_spec p 0); [contradiction|reflexivity]. }
    rewrite El. cbn [rbind]. do 2 eexists. exists pss. split; [reflexivity|]. split; [reflexivity|]. cbn [s_world s_arrs]. split; [unfold per_op; lia|exact I].
  - destruct (fetch_rel w [] l pss sp h i I) as (p & Ep & Hp).
    unfold array_fetch_item. rewrite Ep. cbn [rbind].
    destruct (sp_item sp h i) as [v|] eqn:Ev; cbn in Hp.
    + destruct Hp as [Hp0 Hpv]. destruct (N.eqb_spec p 0) as [|_]; [contradiction|]. unfold item_copy. rewrite Hpv.
      destruct ok.
      * destruct (new_inv w v [] l pss sp I) as (Q1 & Q2 & Q3 & Q4 & Q5 & Q6). destruct (item_new w v) as [w1 q]. cbn [fst snd rbind] in *.
        unfold look. rewrite Q4. destruct (N.eqb_spec q 0) as [|_]; [contradiction|]. cbn [rbind].
        destruct (destroy_inv w1 q [] _ _ _ Q1 Q6) as (w2 & Hd & Hn3 & I2). rewrite Hd. cbn [rbind].
        do 2 eexists. exists pss. split; [reflexivity|]. split; [reflexivity|]. cbn [s_world s_arrs]. split; [unfold per_op; lia|exact I2].
      * cbv beta iota delta [rbind fst snd look N.eqb]. do 2 eexists. exists pss. split; [reflexivity|]. split; [reflexivity|]. cbn [s_world s_arrs]. split; [unfold per_op; lia|exact I].
    + subst p. cbv beta iota delta [rbind fst snd look N.eqb]. do 2 eexists. exists pss. split; [reflexivity|].
      split; [destruct ok; reflexivity|]. cbn [s_world s_arrs]. split; [unfold per_op; lia|exact I].
  - pose proof (inv_rel _ _ _ _ _ I h) as R. unfold array_copy.
    destruct (hget l h) as [a|] eqn:Ea; cbn [rel_arr] in R.
    + destruct (sp_arr sp h) as [va|] eqn:Eva; [|contradiction]. pose proof (rel_length w a _ va R) as HL.
      assert (Hh : (h < length l)%nat).
      { destruct (Nat.lt_ge_cases h (length l)) as [|Hge]; [assumption|]. unfold hget in Ea. rewrite nth_overflow in Ea by exact Hge. discriminate. }
      pose proof (arr_small w (Some a) (nth h pss []) va R) as Hs. unfold MAX_BUFFER_SIZE in Hs.
      destruct R as [Hps Hf].
      assert (Hsz : a_size a = N.of_nat (length va)) by (destruct Hps as [-> _]; rewrite HL; reflexivity).
      rewrite Hsz, Nat2N.id.
      destruct (array_new_ok (N.of_nat (length va))) as [_ E2]; [unfold two32; lia|].
      destruct E2 as (c & Ec & Hcps); [lia|]. rewrite Ec. rewrite Nat2N.id in Hcps.
      assert (I0 : Inv w [] (l ++ [Some c]) (pss ++ [repeat 0 (length va)]) (sp ++ [Some (firstn (N.to_nat 0) va ++ repeat None (length va))])).
      { apply push_inv; [exact I|split; [exact Hcps|apply rel_repeat]|intros p Hp; apply cnt_repeat0; exact Hp]. }
      destruct (copy_loop_inv oks a va l sp h (length va) 0 w _ (Some c) (w_next w) I0 Hlen Hh Ea Eva) as (w' & c' & pss' & E & Hn & I' & Hso);
        [reflexivity|unfold per_op in Hb; lia|reflexivity|].
      rewrite E. cbn [rbind fst snd]. change (skipn (N.to_nat 0) va) with va in *. rewrite Hso.
      destruct (all_ok oks 0 va); cbn [fst]; do 2 eexists; exists pss'; (split; [reflexivity|]); (split; [reflexivity|]); cbn [s_world s_arrs];
        (split; [unfold per_op; lia|exact I']).
    + destruct (sp_arr sp h); [contradiction|]. cbn [rbind fst snd isome]. do 2 eexists. exists (pss ++ [[]]).
      split; [reflexivity|]. split; [reflexivity|]. cbn [s_world s_arrs]. split; [unfold per_op; lia|]. apply push_inv; [exact I|reflexivity|reflexivity].
  - destruct (destroy_arr_inv w [] l pss sp h I) as (w' & pss' & E & Hn & I'). rewrite E. cbn [rbind].
    do 2 eexists. exists pss'. split; [reflexivity|]. split; [reflexivity|]. cbn [s_world s_arrs]. split; [unfold per_op; lia|exact I'].
Qed.

Lemma run_inv ops : Forall op_ok ops -> forall s pss sp,
  Inv (s_world s) [] (s_arrs s) pss sp -> w_next (s_world s) + N.of_nat (length ops) * per_op <= two64 ->
  exists s' pss', arun s ops = Val (s', snd (sp_run sp ops)) /\ Inv (s_world s') [] (s_arrs s') pss' (fst (sp_run sp ops)).
Proof.
  intros H. induction H as [|o ops Ho Hops IH]; intros s pss sp I Hb; cbn [arun sp_run].
  - exists s, pss. split; [reflexivity|exact I].
  - cbn [length] in Hb. destruct (step_inv s pss sp o I Ho) as (s1 & out & pss1 & E & Es & Hn & I1); [lia|].
    rewrite E. cbn [rbind fst snd]. destruct (sp_step sp o) as [sp1 out']. cbn [fst] in *. injection Es as <-.
    destruct (IH s1 pss1 sp1 I1) as (s2 & pss2 & E2 & I2); [lia|]. rewrite E2. cbn [rbind fst snd].
    destruct (sp_run sp1 ops) as [sp2 outs]. cbn [fst snd] in *. exists s2, pss2. split; [reflexivity|exact I2].
Qed.
Lemma init_inv : Inv (s_world (V:=V) ainit) [] (s_arrs (V:=V) ainit) [] [].
Proof.
  constructor; cbn; auto; try lia.
  - intros [|h]; reflexivity.
Qed.

Lemma live_items w arrs pss sp : Inv w [] arrs pss sp -> length (live_list w) = sp_items sp.
Proof.
  intros I.
  assert (E1 : length (live_list w) = length (nzl (concat pss))).
  { apply Permutation_length. apply (Permutation_count_occ N.eq_dec). intros p.
    assert (ND : NoDup (live_list w)).
    { unfold live_list. apply NoDup_filter. apply FinFun.Injective_map_NoDup; [intros x y; lia|apply seq_NoDup]. }
    destruct (N.eq_dec p 0) as [->|Hp].
    - assert (A : cnt 0 (live_list w) = 0%nat).
      { apply count_occ_not_In. unfold live_list. rewrite filter_In. intros [_ Hx]. rewrite (inv_0 _ _ _ _ _ I) in Hx. discriminate. }
      assert (B : cnt 0 (nzl (concat pss)) = 0%nat).
      { apply count_occ_not_In. unfold nzl. rewrite in_flat_map. intros (x & _ & Hx). unfold nz in Hx.
        destruct (N.eqb_spec x 0); [destruct Hx|]. destruct Hx as [Hx|[]]. congruence. }
      rewrite A, B. reflexivity.
    - rewrite cnt_nzl by exact Hp. pose proof (inv_cnt _ _ _ _ _ I p Hp) as C. cbn [count_occ] in C. rewrite Nat.add_0_l in C. rewrite C.
      destruct (live w p) eqn:L.
      + assert (In p (live_list w)).
        { unfold live_list. rewrite filter_In. split; [|exact L]. apply in_map_iff. exists (N.to_nat p). split; [lia|].
          apply in_seq. pose proof (inv_lt _ _ _ _ _ I p L). lia. }
        apply (NoDup_count_occ' N.eq_dec); assumption.
      + apply count_occ_not_In. unfold live_list. rewrite filter_In. intros [_ Hx]. unfold live in L. congruence. }
  rewrite E1. unfold sp_items.
  assert (G : forall h, rel_arr w (hget arrs h) (nth h pss []) (sp_arr sp h)) by apply I.
  pose proof (inv_len1 _ _ _ _ _ I) as L1. pose proof (inv_len2 _ _ _ _ _ I) as L2. clear I E1.
  revert pss sp G L1 L2. induction arrs as [|a arrs IH]; intros [|ps pss] [|va sp] G L1 L2; cbn [length] in *; try lia; [reflexivity|].
  cbn [concat map]. unfold nzl in *. rewrite flat_map_app, filter_app, !app_length. f_equal.
  - specialize (G 0%nat). unfold hget, sp_arr in G. cbn [nth] in G. unfold rel_arr in G.
    destruct a as [a|], va as [va|]; try contradiction.
    + destruct G as [_ G]. induction G as [|p ov ps va Hr Hf IHf]; [reflexivity|]. cbn [flat_map filter].
      rewrite app_length, IHf. destruct ov as [v|]; cbn in Hr.
      * destruct Hr as [Hp _]. unfold nz. destruct (N.eqb_spec p 0); [contradiction|]. reflexivity.
      * subst p. reflexivity.
    + subst ps. reflexivity.
  - apply IH; [|lia|lia]. intros h. apply (G (S h)).
Qed.

Lemma array_refines (ops : list (aop V)) : Forall op_ok ops -> N.of_nat (length ops) < 2 ^ 34 ->
  exists s', arun ainit ops = Val (s', snd (sp_run [] ops)) /\
    length (live_list (s_world s')) = sp_items (fst (sp_run [] ops)).
Proof.
  intros Ho Hn. change (2 ^ 34) with 17179869184 in Hn.
  destruct (run_inv ops Ho ainit [] [] init_inv) as (s' & pss' & E & I).
  { change (w_next (s_world ainit)) with 1. unfold per_op, two64. lia. }
  exists s'. split; [exact E|]. apply (live_items _ _ _ _ I).
Qed.
End A.
