From Verif.Base Require Import Bytes.
From Verif.Model Require Import Buffer Cipher Ecdsa Kdf.
From Verif.Spec Require Import BufferSpec CodecSpec.
From Verif.Proofs Require Import BytesFacts BufferFacts BufferProps.
From Coq Require Import ZifyBool ZifyNat ZifyN.
Ltac Zify.zify_post_hook ::= Z.div_mod_to_equations.
Local Open Scope N_scope.

Lemma blen_nat (b : bytes) (n : nat) : length b = n <-> blen b = N.of_nat n.
Proof. unfold blen. lia. Qed.
Lemma limit_eq : MAX_BUFFER_SIZE = library_limit. Proof. reflexivity. Qed.
Lemma create_limit b : within_limit (blen b) -> buffer_create b = Some b.
Proof. intros H. apply buffer_create_ok, size_ok_limit, H. Qed.
Lemma copy_limit b : within_limit (blen b) -> buffer_copy (Some b) = Some b.
Proof. apply create_limit. Qed.
Lemma buffer_copy_Some b c : buffer_copy b = Some c -> b = Some c /\ within_limit (blen c).
Proof.
  destruct b as [b|]; cbn; [|discriminate]. intros H. apply buffer_create_Some in H. destruct H as [-> H].
  split; [reflexivity|]. apply size_ok_limit. exact H.
Qed.
Lemma concat_multi_limit l b : b = concat (map obytes l) -> within_limit (blen b) -> buffer_concat_multi l = Some b.
Proof. intros -> H. apply create_limit. exact H. Qed.
Lemma bytes_of_obytes o : bytes_of o = obytes o. Proof. reflexivity. Qed.

Lemma app_inj_length_l' {A} (a b x y : list A) : a ++ x = b ++ y -> length a = length b -> a = b /\ x = y.
Proof.
  revert b. induction a as [|p a IH]; intros [|q b] H L; cbn in *; try discriminate; [auto|].
  injection H as -> H. injection L as L. destruct (IH b H L) as [-> ->]. auto.
Qed.
(* section of a buffer, in app form *)
Lemma section_pre (a m z : bytes) st ln : blen a = st -> blen m = ln -> 0 < ln -> ln < MAX_BUFFER_SIZE ->
  st + ln <= MAX_BUFFER_SIZE -> buffer_copy_section (a ++ m ++ z) st ln = Some m.
Proof.
  intros <- <- H1 H2 H3. unfold buffer_copy_section.
  replace (section_ok (a ++ m ++ z) (blen a) (blen m)) with true by (unfold section_ok; rewrite !blen_app; lia).
  unfold blen. rewrite !Nat2N.id. f_equal. apply slice_app_mid.
Qed.
Lemma section_end (a m : bytes) st ln : blen a = st -> blen m = ln -> 0 < ln -> ln < MAX_BUFFER_SIZE ->
  st + ln <= MAX_BUFFER_SIZE -> buffer_copy_section (a ++ m) st ln = Some m.
Proof. intros. rewrite <- (app_nil_r m) at 1. apply section_pre; assumption. Qed.
Lemma section_inv b st ln r : buffer_copy_section b st ln = Some r ->
  exists a z, b = a ++ r ++ z /\ blen a = st /\ blen r = ln /\ 0 < ln < MAX_BUFFER_SIZE /\ st + ln <= MAX_BUFFER_SIZE /\
    a = firstn (N.to_nat st) b /\ z = skipn (N.to_nat (st + ln)) b.
Proof.
  unfold buffer_copy_section. destruct (section_ok b st ln) eqn:E; [|discriminate]. intros H. apply Some_inj in H. subst r.
  unfold section_ok, blen in E. exists (firstn (N.to_nat st) b), (skipn (N.to_nat (st + ln)) b).
  unfold slice. split.
  - replace (N.to_nat (st + ln)) with (N.to_nat ln + N.to_nat st)%nat by lia. rewrite <- skipn_skipn.
    rewrite firstn_skipn, firstn_skipn. reflexivity.
  - unfold blen. rewrite !firstn_length, skipn_length. repeat split; lia.
Qed.

Lemma cipher_find_id c : cipher_find (b2n (n2b (cipher_id c))) = Some c.
Proof. destruct c; reflexivity. Qed.
Lemma cipher_find_Some n c : cipher_find n = Some c -> n = cipher_id c.
Proof. unfold cipher_find. destruct (N.eqb_spec n 0), (N.eqb_spec n 1); intros H; try discriminate; injection H as <-; assumption. Qed.

Lemma result_wire_eq r : good_result r ->
  result_wire r = n2b (cipher_id (cr_cipher r)) :: cr_iv r ++ bytes_of (cr_tag r) ++ bytes_of (cr_text r).
Proof. unfold result_wire. destruct (cr_cipher r); reflexivity. Qed.

Lemma result_serialize_ok r : good_result r -> within_limit (blen (result_wire r)) ->
  cipher_result_serialize (Some r) = Some (result_wire r).
Proof.
  intros G L. unfold cipher_result_serialize, cipher_result_is_valid. rewrite result_wire_eq in * by exact G.
  destruct G as [G _]. destruct r as [c iv text tag]. cbn [cr_cipher cr_iv cr_text cr_tag] in *.
  destruct c; cbn [is_authenticated negb andb].
  - destruct G as (Hiv & t & -> & Ht). cbn [negb]. apply concat_multi_limit; [|exact L].
    cbn [map concat obytes bytes_of]. rewrite app_nil_r. reflexivity.
  - destruct G as (Hiv & ->). apply concat_multi_limit; [|exact L].
    cbn [map concat obytes bytes_of app]. rewrite app_nil_r. reflexivity.
Qed.

Lemma section_tail b pos : 0 < pos -> pos < blen b -> blen b <= MAX_BUFFER_SIZE ->
  buffer_copy_section b pos (blen b - pos) = Some (skipn (N.to_nat pos) b).
Proof.
  intros H1 H2 H3. unfold buffer_copy_section.
  replace (section_ok b pos (blen b - pos)) with true by (unfold section_ok; lia).
  f_equal. unfold slice. apply firstn_all2. rewrite skipn_length. unfold blen. lia.
Qed.

Lemma result_parse_ok r : good_result r -> within_limit (blen (result_wire r)) ->
  cipher_result_from_buffer (Some (result_wire r)) = Val r.
Proof.
  intros G L. rewrite result_wire_eq in * by exact G. unfold within_limit, library_limit in L.
  destruct G as [G Hne]. destruct r as [c iv text tag]. cbn [cr_cipher cr_iv cr_text cr_tag] in *.
  unfold cipher_result_from_buffer. set (w := n2b (cipher_id c) :: iv ++ bytes_of tag ++ bytes_of text) in *.
  assert (Hiv : blen iv = iv_len c) by (apply N2Nat.inj; destruct c, G as [G _]; unfold blen; rewrite G; reflexivity).
  assert (Htag : blen (bytes_of tag) = auth_tag_len c).
  { destruct c; destruct G as [_ G]; [destruct G as (t & -> & Ht); cbn [bytes_of]; unfold blen; rewrite Ht; reflexivity|rewrite G; reflexivity]. }
  assert (Hw : blen w = 1 + iv_len c + auth_tag_len c + blen (bytes_of text)).
  { unfold w. rewrite blen_cons, !blen_app. lia. }
  rewrite Hw. destruct (1 + iv_len c + auth_tag_len c + blen (bytes_of text) =? 0) eqn:E0; [lia|].
  change (rd w 0) with (@Val byte (n2b (cipher_id c))). cbn [rbind]. rewrite cipher_find_id. cbn [lift rbind].
  destruct (_ <? 1 + iv_len c + auth_tag_len c) eqn:E1; [lia|]. clear E0 E1.
  assert (Civ : 0 < iv_len c < 20) by (destruct c; cbn; lia).
  assert (Ctag : auth_tag_len c <= 16) by (destruct c; cbn; lia).
  assert (S1 : buffer_copy_section w 1 (iv_len c) = Some iv).
  { apply (section_pre [n2b (cipher_id c)] iv (bytes_of tag ++ bytes_of text)); try assumption; try reflexivity; unfold MAX_BUFFER_SIZE; lia. }
  rewrite S1. cbn [lift rbind].
  assert (S2 : (if is_authenticated c
          then rbind (lift (buffer_copy_section w (1 + iv_len c) (auth_tag_len c))) (fun t => Val (Some t))
          else Val None) = Val tag).
  { destruct c; cbn [is_authenticated].
    - destruct G as (_ & t & -> & Ht). cbn [bytes_of] in *.
      assert (E : w = (n2b (cipher_id AES256_GCM) :: iv) ++ t ++ bytes_of text) by reflexivity.
      rewrite E, (section_pre (n2b (cipher_id AES256_GCM) :: iv) t (bytes_of text)); [reflexivity| | | | |];
        rewrite ?blen_cons; unfold MAX_BUFFER_SIZE; cbn [iv_len auth_tag_len] in *; lia.
    - destruct G as (_ & ->). reflexivity. }
  rewrite S2. cbn [rbind]. clear S2.
  set (pos := if is_authenticated c then 1 + iv_len c + auth_tag_len c else 1 + iv_len c).
  assert (Hpos : pos = 1 + iv_len c + auth_tag_len c) by (unfold pos; destruct c; reflexivity).
  assert (S3 : (if 1 + iv_len c + auth_tag_len c <? 1 + iv_len c + auth_tag_len c + blen (bytes_of text)
       then rbind (lift (buffer_copy_section w pos (1 + iv_len c + auth_tag_len c + blen (bytes_of text) - pos))) (fun t => Val (Some t))
       else Val None) = Val text).
  { destruct text as [x|]; cbn [bytes_of] in *.
    - destruct (N.ltb_spec (1 + iv_len c + auth_tag_len c) (1 + iv_len c + auth_tag_len c + blen x)) as [H|H].
      + assert (E : w = ((n2b (cipher_id c) :: iv) ++ bytes_of tag) ++ x) by (unfold w; rewrite <- app_assoc; reflexivity).
        rewrite E, (section_end ((n2b (cipher_id c) :: iv) ++ bytes_of tag) x); [reflexivity| | | | |];
          rewrite ?blen_app, ?blen_cons; unfold MAX_BUFFER_SIZE; lia.
      + exfalso. apply Hne. f_equal. apply blen_0. lia.
    - rewrite blen_nil, N.add_0_r, N.ltb_irrefl. reflexivity. }
  rewrite S3. cbn [rbind]. unfold cipher_result_create. rewrite Hiv, N.eqb_refl. cbn [negb].
  destruct c.
  - destruct G as (_ & t & -> & Ht). cbn [is_authenticated andb bytes_of] in *. rewrite Htag, N.eqb_refl. reflexivity.
  - destruct G as (_ & ->). reflexivity.
Qed.

Lemma result_create_good c iv text tag r : cipher_result_create c (Some iv) text tag = Some r ->
  r = {| cr_cipher := c; cr_iv := iv; cr_text := text; cr_tag := tag |} /\ blen iv = iv_len c /\
  match c with AES256_GCM => exists t, tag = Some t /\ blen t = 16 | AES256_CTR => tag = None \/ exists t, tag = Some t /\ blen t = 0 end.
Proof.
  unfold cipher_result_create. destruct (N.eqb_spec (blen iv) (iv_len c)) as [Hi|]; [|discriminate]. cbn [negb].
  destruct tag as [t|].
  - rewrite andb_false_r. destruct (N.eqb_spec (blen t) (auth_tag_len c)) as [Ht|]; [|discriminate]. cbn [negb]. intros H. injection H as <-.
    split; [reflexivity|]. split; [exact Hi|]. destruct c; [exists t|right; exists t]; split; auto.
  - rewrite andb_true_r. destruct c; cbn; [discriminate|]. intros H. injection H as <-. auto.
Qed.

Lemma result_parse_inv b r : cipher_result_from_buffer b = Val r ->
  good_result r /\ b = Some (result_wire r) /\ within_limit (blen (result_wire r)).
Proof.
  destruct b as [b|]; [|discriminate]. unfold cipher_result_from_buffer.
  destruct (blen b =? 0) eqn:E0; [discriminate|]. destruct b as [|b0 b]; [discriminate|]. rewrite rd_0. cbn [rbind].
  destruct (cipher_find (b2n b0)) as [c|] eqn:Ec; [|discriminate]. cbn [lift rbind].
  apply cipher_find_Some in Ec. assert (Eb : b0 = n2b (cipher_id c)) by (rewrite <- Ec; symmetry; apply n2b_b2n). clear Ec E0.
  set (w := b0 :: b). destruct (blen w <? 1 + iv_len c + auth_tag_len c) eqn:E1; [discriminate|].
  destruct (buffer_copy_section w 1 (iv_len c)) as [iv|] eqn:S1; [|discriminate]. cbn [lift rbind].
  apply section_inv in S1. destruct S1 as (a1 & z1 & W1 & La1 & Liv & _ & _ & _ & _).
  assert (A1 : a1 = [b0]).
  { destruct a1 as [|x [|y a1]]; rewrite ?blen_cons in La1; try (unfold blen in La1; cbn in La1; lia). unfold w in W1. injection W1 as -> _. reflexivity. }
  subst a1. assert (W1' : b = iv ++ z1) by (injection W1 as ->; reflexivity). clear W1.
  assert (Lw : blen w = 1 + iv_len c + blen z1) by (unfold w; rewrite W1', blen_cons, blen_app; lia).
  destruct (is_authenticated c) eqn:Ea.
  - destruct c; [|discriminate]. cbn [iv_len auth_tag_len] in *.
    destruct (buffer_copy_section w (1 + 12) 16) as [t|] eqn:S2; [|discriminate]. cbn [lift rbind].
    apply section_inv in S2. destruct S2 as (a2 & z2 & W2 & La2 & Lt & _).
    assert (E : (b0 :: iv) = a2 /\ z1 = t ++ z2).
    { unfold w in W2. rewrite W1', app_comm_cons in W2. apply app_inj_length_l' in W2; [exact W2|]. apply Nat2N.inj. change (blen (b0 :: iv) = blen a2). rewrite blen_cons. lia. }
    destruct E as [<- ->]. rewrite blen_app in Lw.
    destruct (1 + 12 + 16 <? blen w) eqn:E2.
    + destruct (buffer_copy_section w (1 + 12 + 16) (blen w - (1 + 12 + 16))) as [x|] eqn:S3; [|discriminate].
      cbn [lift rbind]. apply section_inv in S3. destruct S3 as (a3 & z3 & W3 & La3 & Lx & Hx & Hm & _).
      assert (E : (b0 :: iv) ++ t = a3 /\ z2 = x ++ z3).
      { unfold w in W3. rewrite W1', app_comm_cons, app_assoc in W3. apply app_inj_length_l' in W3; [exact W3|]. apply Nat2N.inj.
        change (blen ((b0 :: iv) ++ t) = blen a3). rewrite blen_app, blen_cons. lia. }
      destruct E as [<- ->]. rewrite blen_app in Lw. assert (z3 = []) by (apply blen_0; lia). subst z3.
      intros H. apply lift_Val in H. apply result_create_good in H. destruct H as (-> & _ & _).
      assert (G : good_result {| cr_cipher := AES256_GCM; cr_iv := iv; cr_text := Some x; cr_tag := Some t |}).
      { split; cbn [cr_cipher cr_iv cr_text cr_tag].
        - split; [apply blen_nat; exact Liv|]. exists t. split; [reflexivity|]. apply blen_nat. exact Lt.
        - intros H. injection H as ->. rewrite blen_nil in Lx. lia. }
      assert (W : w = result_wire {| cr_cipher := AES256_GCM; cr_iv := iv; cr_text := Some x; cr_tag := Some t |}).
      { rewrite result_wire_eq by exact G. unfold w. rewrite W1', Eb. cbn [cr_cipher cr_iv cr_text cr_tag bytes_of]. rewrite app_nil_r. reflexivity. }
      split; [exact G|]. rewrite <- W. split; [reflexivity|]. unfold within_limit. rewrite <- limit_eq. lia.
    + cbn [rbind]. intros H. apply lift_Val in H. apply result_create_good in H. destruct H as (-> & _ & _).
      assert (z2 = []) by (apply blen_0; lia). subst z2.
      assert (G : good_result {| cr_cipher := AES256_GCM; cr_iv := iv; cr_text := None; cr_tag := Some t |}).
      { split; cbn [cr_cipher cr_iv cr_text cr_tag].
        - split; [apply blen_nat; exact Liv|]. exists t. split; [reflexivity|]. apply blen_nat. exact Lt.
        - discriminate. }
      assert (W : w = result_wire {| cr_cipher := AES256_GCM; cr_iv := iv; cr_text := None; cr_tag := Some t |}).
      { rewrite result_wire_eq by exact G. unfold w. rewrite W1', Eb. reflexivity. }
      split; [exact G|]. rewrite <- W. split; [reflexivity|]. unfold within_limit, library_limit. lia.
  - destruct c; [discriminate|]. cbn [iv_len auth_tag_len rbind] in *.
    destruct (1 + 16 + 0 <? blen w) eqn:E2.
    + destruct (buffer_copy_section w (1 + 16) (blen w - (1 + 16))) as [x|] eqn:S3; [|discriminate].
      cbn [lift rbind]. apply section_inv in S3. destruct S3 as (a3 & z3 & W3 & La3 & Lx & Hx & Hm & _).
      assert (E : (b0 :: iv) = a3 /\ z1 = x ++ z3).
      { unfold w in W3. rewrite W1', app_comm_cons in W3. apply app_inj_length_l' in W3; [exact W3|]. apply Nat2N.inj. change (blen (b0 :: iv) = blen a3). rewrite blen_cons. lia. }
      destruct E as [<- ->]. rewrite blen_app in Lw. assert (z3 = []) by (apply blen_0; lia). subst z3.
      intros H. apply lift_Val in H. apply result_create_good in H. destruct H as (-> & _ & _).
      assert (G : good_result {| cr_cipher := AES256_CTR; cr_iv := iv; cr_text := Some x; cr_tag := None |}).
      { split; cbn [cr_cipher cr_iv cr_text cr_tag].
        - split; [apply blen_nat; exact Liv|reflexivity].
        - intros H. injection H as ->. rewrite blen_nil in Lx. lia. }
      assert (W : w = result_wire {| cr_cipher := AES256_CTR; cr_iv := iv; cr_text := Some x; cr_tag := None |}).
      { rewrite result_wire_eq by exact G. unfold w. rewrite W1', Eb. cbn [cr_cipher cr_iv cr_text cr_tag bytes_of app]. rewrite app_nil_r. reflexivity. }
      split; [exact G|]. rewrite <- W. split; [reflexivity|]. unfold within_limit. rewrite <- limit_eq. lia.
    + cbn [rbind]. intros H. apply lift_Val in H. apply result_create_good in H. destruct H as (-> & _ & _).
      assert (z1 = []) by (apply blen_0; lia). subst z1.
      assert (G : good_result {| cr_cipher := AES256_CTR; cr_iv := iv; cr_text := None; cr_tag := None |}).
      { split; cbn [cr_cipher cr_iv cr_text cr_tag].
        - split; [apply blen_nat; exact Liv|reflexivity].
        - discriminate. }
      assert (W : w = result_wire {| cr_cipher := AES256_CTR; cr_iv := iv; cr_text := None; cr_tag := None |}).
      { rewrite result_wire_eq by exact G. unfold w. rewrite W1', Eb. reflexivity. }
      split; [exact G|]. rewrite <- W. split; [reflexivity|]. unfold within_limit, library_limit. lia.
Qed.

Lemma result_parse_safe b : cipher_result_from_buffer b <> UB.
Proof.
  destruct b as [b|]; [|discriminate]. unfold cipher_result_from_buffer.
  destruct (blen b =? 0) eqn:E0; [discriminate|]. destruct b as [|b0 b]; [discriminate|]. rewrite rd_0. cbn [rbind].
  destruct (cipher_find (b2n b0)) as [c|]; [|discriminate]. cbn [lift rbind].
  destruct (_ <? _); [discriminate|].
  destruct (buffer_copy_section _ 1 (iv_len c)) as [iv|]; [|discriminate]. cbn [lift rbind].
  destruct (is_authenticated c).
  - destruct (buffer_copy_section _ (1 + iv_len c) _) as [t|]; [|discriminate]. cbn [lift rbind].
    destruct (_ <? _); [|apply lift_notUB].
    destruct (buffer_copy_section _ _ _) as [x|]; [|discriminate]. apply lift_notUB.
  - cbn [rbind]. destruct (_ <? _); [|apply lift_notUB].
    destruct (buffer_copy_section _ _ _) as [x|]; [|discriminate]. apply lift_notUB.
Qed.

Lemma result_copy_ok r : good_result r -> within_limit (blen (result_wire r)) -> cipher_result_copy (Some r) = Some r.
Proof.
  intros G L. rewrite result_wire_eq in L by exact G. destruct G as [G Hne]. destruct r as [c iv text tag]. cbn [cr_cipher cr_iv cr_text cr_tag] in *.
  rewrite blen_cons, !blen_app in L. unfold within_limit, library_limit in L.
  unfold cipher_result_copy. cbn [cr_cipher cr_iv cr_text cr_tag].
  assert (Liv : blen iv = iv_len c) by (apply N2Nat.inj; destruct c, G as [G _]; unfold blen; rewrite G; reflexivity).
  rewrite (copy_limit iv) by (unfold within_limit, library_limit; destruct c; cbn [iv_len] in Liv; lia).
  assert (Ht : match text with Some t => buffer_copy (Some t) | None => None end = text).
  { destruct text as [x|]; [|reflexivity]. apply copy_limit. unfold within_limit, library_limit. cbn [bytes_of] in L.
    destruct x; [exfalso; apply Hne; reflexivity|]. rewrite blen_cons in *. lia. }
  rewrite Ht. unfold cipher_result_create. rewrite Liv, N.eqb_refl. cbn [negb]. destruct c.
  - destruct G as (_ & t & -> & Htl). assert (Lt : blen t = 16) by (apply blen_nat in Htl; exact Htl).
    rewrite (copy_limit t) by (unfold within_limit, library_limit; lia). cbn. rewrite Lt. reflexivity.
  - destruct G as (_ & ->). reflexivity.
Qed.

Lemma buffer_concat_Some x y b : buffer_concat (Some x) (Some y) = Some b -> b = x ++ y /\ within_limit (blen b).
Proof.
  unfold buffer_concat. intros H. apply buffer_create_Some in H. destruct H as [-> H]. split; [reflexivity|]. apply size_ok_limit, H.
Qed.

(* keys *)
Lemma key_wire_eq k : key_wire k = n2b (cipher_id (ck_cipher k)) :: ck_data k.
Proof. unfold key_wire. destruct (ck_cipher k); reflexivity. Qed.
Lemma key_len_32 c : key_len c = 32. Proof. destruct c; reflexivity. Qed.
Lemma good_key_len k : good_key k <-> blen (ck_data k) = 32.
Proof. unfold good_key. apply blen_nat. Qed.
Lemma key_serialize_ok k : good_key k -> cipher_key_serialize (Some k) = Some (key_wire k).
Proof.
  intros G. apply good_key_len in G. unfold cipher_key_serialize, buffer_concat. rewrite key_wire_eq. apply create_limit.
  cbn [app]. rewrite blen_cons. unfold within_limit, library_limit. lia.
Qed.
Lemma key_parse_ok k rest : good_key k -> blen rest <= library_limit ->
  cipher_key_from_buffer (Some (key_wire k ++ rest)) = Val k.
Proof.
  intros G Hr. apply good_key_len in G. rewrite key_wire_eq. unfold cipher_key_from_buffer. cbn [app].
  rewrite blen_cons, blen_app, G. unfold library_limit in Hr.
  destruct (1 + (32 + blen rest) <=? 1) eqn:E; [lia|]. rewrite rd_0. cbn [rbind]. rewrite cipher_find_id. cbn [lift rbind].
  rewrite key_len_32. destruct (wsub64 (1 + (32 + blen rest)) 1 <? 32) eqn:E2; [unfold wsub64, two64 in E2; lia|].
  assert (S : buffer_copy_section (n2b (cipher_id (ck_cipher k)) :: ck_data k ++ rest) 1 32 = Some (ck_data k)).
  { apply (section_pre [n2b (cipher_id (ck_cipher k))] (ck_data k) rest); try reflexivity; unfold MAX_BUFFER_SIZE; lia. }
  rewrite S. cbn [lift rbind]. unfold cipher_key_create. rewrite G, key_len_32. cbn. destruct k; reflexivity.
Qed.
Lemma key_parse_inv b k : blen b < two64 -> cipher_key_from_buffer (Some b) = Val k -> good_key k /\ exists rest, b = key_wire k ++ rest.
Proof.
  intros Hb. unfold cipher_key_from_buffer. destruct (blen b <=? 1) eqn:E0; [discriminate|]. destruct b as [|b0 b]; [discriminate|]. rewrite rd_0. cbn [rbind].
  destruct (cipher_find (b2n b0)) as [c|] eqn:Ec; [|discriminate]. cbn [lift rbind].
  apply cipher_find_Some in Ec. assert (Eb : b0 = n2b (cipher_id c)) by (rewrite <- Ec; symmetry; apply n2b_b2n).
  rewrite key_len_32. destruct (_ <? 32); [discriminate|].
  destruct (buffer_copy_section (b0 :: b) 1 32) as [d|] eqn:S1; [|discriminate]. cbn [lift rbind].
  apply section_inv in S1. destruct S1 as (a1 & z1 & W1 & La1 & Ld & _).
  destruct a1 as [|x [|y a1]]; rewrite ?blen_cons in La1; try (unfold blen in La1; cbn in La1; lia).
  unfold cipher_key_create. rewrite Ld, key_len_32, N.eqb_refl. cbn [negb lift]. intros H. injection H as <-. split; [apply good_key_len; exact Ld|].
  exists z1. rewrite key_wire_eq. cbn [ck_cipher ck_data]. injection W1 as -> ->. rewrite Eb. reflexivity.
Qed.
Lemma key_parse_safe b : cipher_key_from_buffer b <> UB.
Proof.
  destruct b as [b|]; [|discriminate]. unfold cipher_key_from_buffer. destruct (blen b <=? 1) eqn:E0; [discriminate|].
  destruct b as [|b0 b]; [discriminate|]. rewrite rd_0. cbn [rbind].
  destruct (cipher_find _); [|discriminate]. cbn [lift rbind]. destruct (_ <? _); [discriminate|].
  destruct (buffer_copy_section _ _ _); [|discriminate]. apply lift_notUB.
Qed.
Lemma key_copy_ok k : good_key k -> cipher_key_copy (Some k) = Some k.
Proof.
  intros G. apply good_key_len in G. unfold cipher_key_copy. rewrite copy_limit by (unfold within_limit, library_limit; lia).
  unfold cipher_key_create. rewrite G, key_len_32. destruct k; reflexivity.
Qed.
Lemma key_copy_same k k' : cipher_key_copy (Some k) = Some k' -> k' = k.
Proof.
  unfold cipher_key_copy. destruct (buffer_copy _) eqn:E; [|discriminate]. apply buffer_copy_Some in E. destruct E as [E _]. injection E as <-.
  unfold cipher_key_create. destruct (negb _); [discriminate|]. intros H. injection H as <-. destruct k; reflexivity.
Qed.

(* signatures *)
Lemma repeat_zeros n : buffer_create_empty_zero (N.of_nat n) = if size_ok (N.of_nat n) then Some (repeat x00 n) else None.
Proof.
  unfold buffer_create_empty_zero, buffer_create_empty, size_ok.
  destruct ((MAX_BUFFER_SIZE <? N.of_nat n) || (N.of_nat n =? 0)) eqn:E; destruct ((0 <? N.of_nat n) && (N.of_nat n <=? MAX_BUFFER_SIZE)) eqn:E2; try lia; [reflexivity|].
  rewrite Nat2N.id. f_equal. clear. generalize 0%nat. induction n as [|n IH]; intros s; cbn; [reflexivity|]. rewrite IH. reflexivity.
Qed.
Lemma blen_repeat (x : byte) n : blen (repeat x n) = N.of_nat n.
Proof. unfold blen. rewrite repeat_length. reflexivity. Qed.
Lemma sig_wire_length s : good_sig s -> length (sig_wire s) = 143%nat.
Proof. intros G. unfold good_sig in G. unfold sig_wire. cbn [length]. rewrite app_length, repeat_length. lia. Qed.
Lemma sig_serialize_ok s : good_sig s -> ecdsa_result_serialize (Some s) = Some (sig_wire s).
Proof.
  intros G. unfold good_sig in G. unfold ecdsa_result_serialize.
  destruct s as [c d sig]. cbn [es_curve es_digest es_sig] in *. destruct c. cbn [signature_size curve_id]. unfold ECDSA_HEADER_SIZE.
  assert (Hl : blen sig = N.of_nat (length sig)) by reflexivity.
  assert (Ew : wadd64 (blen sig) 2 = blen sig + 2) by (unfold wadd64, two64; lia). rewrite Ew.
  destruct (143 <? blen sig + 2) eqn:E; [lia|].
  assert (Ep : wsub64 (wsub64 143 (blen sig)) 2 mod 256 = N.of_nat (141 - length sig)) by (unfold wsub64, two64; lia).
  rewrite Ep, repeat_zeros.
  apply concat_multi_limit.
  - unfold sig_wire. cbn [es_digest es_sig map concat obytes]. rewrite app_nil_r. cbn [app].
    assert (Em : n2b (N.lor (N.shiftl 0 4) (digest_id d)) = match d with SHA256 => x01 | SHA384 => x02 | SHA512 => x03 end) by (destruct d; reflexivity).
    rewrite Em. repeat apply (f_equal2 (@cons byte)); try reflexivity. f_equal.
    unfold size_ok. destruct (141 - length sig)%nat as [|k] eqn:Ek; [reflexivity|].
    replace ((0 <? N.of_nat (S k)) && (N.of_nat (S k) <=? MAX_BUFFER_SIZE)) with true by (unfold MAX_BUFFER_SIZE; lia). reflexivity.
  - unfold within_limit, library_limit. change (blen ?x) with (N.of_nat (length x)). rewrite sig_wire_length by exact G. lia.
Qed.
Lemma digest_find_id d : digest_find (N.land (b2n (match d with SHA256 => x01 | SHA384 => x02 | SHA512 => x03 end)) 15) = Some d.
Proof. destruct d; reflexivity. Qed.
Lemma curve_find_0 (d : digest) : curve_find (N.shiftr (N.land (b2n (match d with SHA256 => x01 | SHA384 => x02 | SHA512 => x03 end)) 240) 4) = Some P521.
Proof. destruct d; reflexivity. Qed.
(* any padding bytes are accepted *)
Lemma sig_parse_pad d pad sig : (length pad <= 255)%nat -> (1 <= length sig)%nat -> blen pad + blen sig + 2 <= library_limit ->
  ecdsa_result_create_from_buffer (Some (match d with SHA256 => x01 | SHA384 => x02 | SHA512 => x03 end :: n2b (blen pad) :: pad ++ sig))
  = Val {| es_curve := P521; es_digest := d; es_sig := sig |}.
Proof.
  intros Hp Hs Hl. unfold library_limit in Hl. unfold ecdsa_result_create_from_buffer, ECDSA_HEADER_SIZE.
  set (x := match d with SHA256 => x01 | SHA384 => x02 | SHA512 => x03 end).
  assert (L : blen (x :: n2b (blen pad) :: pad ++ sig) = 2 + blen pad + blen sig) by (rewrite !blen_cons, blen_app; lia).
  rewrite L. destruct (2 + blen pad + blen sig <? 2) eqn:E; [lia|]. rewrite rd_0. cbn [rbind]. unfold x at 1 2. rewrite digest_find_id, curve_find_0.
  change (rd (x :: n2b (blen pad) :: pad ++ sig) 1) with (@Val byte (n2b (blen pad))). cbn [rbind].
  assert (Hsg : 1 <= blen sig) by (unfold blen; lia).
  rewrite b2n_n2b_small by (unfold blen; lia). destruct (2 + blen pad + blen sig <=? 2 + blen pad) eqn:E2; [lia|].
  assert (S : buffer_copy_section (x :: n2b (blen pad) :: pad ++ sig) (2 + blen pad) (2 + blen pad + blen sig - (2 + blen pad)) = Some sig).
  { apply (section_end (x :: n2b (blen pad) :: pad) sig); rewrite ?blen_cons; unfold MAX_BUFFER_SIZE; lia. }
  rewrite S. reflexivity.
Qed.
Lemma sig_parse_ok s : good_sig s -> ecdsa_result_create_from_buffer (Some (sig_wire s)) = Val s.
Proof.
  intros G. unfold good_sig in G. unfold sig_wire. destruct s as [c d sig]. destruct c. cbn [es_digest es_sig] in *.
  pose proof (sig_parse_pad d (repeat x00 (141 - length sig)) sig) as H. rewrite blen_repeat, repeat_length in H.
  apply H; unfold library_limit, blen; lia.
Qed.
Lemma sig_parse_safe b : ecdsa_result_create_from_buffer b <> UB.
Proof.
  destruct b as [b|]; [|discriminate]. unfold ecdsa_result_create_from_buffer, ECDSA_HEADER_SIZE.
  destruct (blen b <? 2) eqn:E; [discriminate|]. destruct b as [|b0 [|b1 b]]; [discriminate|discriminate|].
  rewrite rd_0. cbn [rbind]. destruct (curve_find _); [|discriminate]. destruct (digest_find _); [|discriminate].
  change (rd (b0 :: b1 :: b) 1) with (@Val byte b1). cbn [rbind]. destruct (_ <=? _); [discriminate|].
  destruct (buffer_copy_section _ _ _); [|discriminate]. apply lift_notUB.
Qed.
Lemma land_nibbles b0 c d : curve_find (N.shiftr (N.land (b2n b0) 240) 4) = Some c -> digest_find (N.land (b2n b0) 15) = Some d ->
  b0 = match d with SHA256 => x01 | SHA384 => x02 | SHA512 => x03 end.
Proof. destruct b0; vm_compute; intros H1 H2; try discriminate; injection H2 as <-; reflexivity. Qed.
Lemma sig_parse_inv b s : ecdsa_result_create_from_buffer (Some b) = Val s ->
  exists pad, b = match es_digest s with SHA256 => x01 | SHA384 => x02 | SHA512 => x03 end :: n2b (blen pad) :: pad ++ es_sig s /\
    (length pad <= 255)%nat /\ es_sig s <> [].
Proof.
  unfold ecdsa_result_create_from_buffer, ECDSA_HEADER_SIZE.
  destruct (blen b <? 2) eqn:E; [discriminate|]. destruct b as [|b0 [|b1 b]]; [discriminate|discriminate|].
  rewrite rd_0. cbn [rbind]. destruct (curve_find _) as [c|] eqn:Ec; [|discriminate]. destruct (digest_find _) as [d|] eqn:Ed; [|discriminate].
  change (rd (b0 :: b1 :: b) 1) with (@Val byte b1). cbn [rbind].
  destruct (blen (b0 :: b1 :: b) <=? 2 + b2n b1) eqn:E2; [discriminate|].
  destruct (buffer_copy_section _ _ _) as [sg|] eqn:S; [|discriminate]. cbn [lift rbind ecdsa_result_create]. intros H. injection H as <-.
  cbn [es_digest es_sig]. apply section_inv in S. destruct S as (a & z & W & La & Ls & Hs & _).
  rewrite !blen_cons in *.
  destruct a as [|x [|y pad]]; rewrite ?blen_cons, ?blen_nil in La; try lia.
  cbn [app] in W. assert (E3 : b0 = x /\ b1 = y /\ b = pad ++ sg ++ z) by (injection W as -> -> ->; auto). destruct E3 as (<- & <- & ->).
  rewrite !blen_app in *. assert (z = []). { apply blen_0. clear - La Ls E2. lia. } subst z. rewrite app_nil_r.
  exists pad. pose proof (b2n_lt b1). replace (blen pad) with (b2n b1) by lia. rewrite n2b_b2n.
  split; [rewrite <- (land_nibbles _ _ _ Ec Ed); reflexivity|]. split; [unfold blen in *; lia|].
  intros ->. rewrite !blen_nil in *. lia.
Qed.

(* kdf *)
Lemma kdf_find_id a : In a [KDF_SCRYPT_2_17; KDF_SCRYPT_2_18; KDF_SCRYPT_2_19; KDF_SCRYPT_2_20; KDF_BCRYPT_15] ->
  find_kdf_algo (b2n (n2b (ka_id a))) = Some a /\ 16 <= ka_salt_size a <= 22 /\ ka_kind a <> KDF_HMAC_SHA2.
Proof.
  cbn [In]. intros H. repeat destruct H as [<-|H]; try contradiction; (split; [reflexivity|split; [cbn; lia|discriminate]]).
Qed.
Lemma kdf_find_Some n a : find_kdf_algo n = Some a ->
  n = ka_id a /\ In a [KDF_SCRYPT_2_17; KDF_SCRYPT_2_18; KDF_SCRYPT_2_19; KDF_SCRYPT_2_20; KDF_BCRYPT_15].
Proof.
  unfold find_kdf_algo. destruct (N.eqb_spec n 5), (N.eqb_spec n 1), (N.eqb_spec n 2), (N.eqb_spec n 3), (N.eqb_spec n 4); try lia; intros H; try discriminate; injection H as <-; (split; [assumption|cbn; auto 10]).
Qed.
Lemma kdf_serialize_ok m : good_kdf_meta m -> kdf_meta_serialize (Some m) = Some (kdf_wire m).
Proof.
  intros (Ha & Hi & s & Hs & Hl). destruct m as [a salt info]. cbn [km_algo km_salt km_info] in *. subst.
  destruct (kdf_find_id a Ha) as (_ & Hsz & Hk). unfold kdf_meta_serialize. cbn [km_algo km_salt].
  assert (E : kdf_kind_eqb (ka_kind a) KDF_HMAC_SHA2 && false = false) by apply andb_false_r. rewrite E.
  unfold buffer_concat, kdf_wire. cbn [km_algo km_salt bytes_of app]. apply create_limit. rewrite blen_cons. unfold within_limit, library_limit. lia.
Qed.
Lemma kdf_parse_ok m rest : good_kdf_meta m -> blen rest <= library_limit ->
  kdf_meta_create_with_buffer (Some (kdf_wire m ++ rest)) = Val m /\
  kdf_meta_size_with_buffer (Some (kdf_wire m ++ rest)) = Val (blen (kdf_wire m)).
Proof.
  intros (Ha & Hi & s & Hs & Hl) Hr. destruct m as [a salt info]. cbn [km_algo km_salt km_info] in *. subst. unfold library_limit in Hr.
  destruct (kdf_find_id a Ha) as (Hf & Hsz & Hk).
  assert (S : kdf_meta_size_with_buffer (Some (kdf_wire {| km_algo := a; km_salt := Some s; km_info := None |} ++ rest)) = Val (1 + ka_salt_size a)).
  { unfold kdf_meta_size_with_buffer, kdf_wire. cbn [km_algo km_salt bytes_of app]. rewrite blen_cons, blen_app.
    destruct (1 + (blen s + blen rest) <=? 1) eqn:E; [lia|]. rewrite rd_0. cbn [rbind]. rewrite Hf. f_equal. apply N.mod_small. lia. }
  split.
  - unfold kdf_meta_create_with_buffer. rewrite S. cbn [rbind]. destruct (1 + ka_salt_size a =? 0) eqn:E; [lia|].
    unfold kdf_wire. cbn [km_algo km_salt bytes_of app]. rewrite blen_cons, blen_app.
    destruct (1 + (blen s + blen rest) <? 1 + ka_salt_size a) eqn:E2; [lia|]. rewrite rd_0. cbn [rbind]. rewrite Hf. cbn [lift rbind].
    assert (SS : buffer_copy_section (n2b (ka_id a) :: s ++ rest) 1 (ka_salt_size a) = Some s).
    { apply (section_pre [n2b (ka_id a)] s rest); try reflexivity; unfold MAX_BUFFER_SIZE; lia. }
    rewrite SS. cbn [lift rbind]. unfold kdf_meta_create. destruct (ka_kind a); [| |congruence]; rewrite Hl, N.eqb_refl; reflexivity.
  - rewrite S. unfold kdf_wire. cbn [km_algo km_salt bytes_of]. rewrite blen_cons, Hl. reflexivity.
Qed.
Lemma kdf_size_safe b : kdf_meta_size_with_buffer b <> UB.
Proof.
  destruct b as [b|]; [|discriminate]. unfold kdf_meta_size_with_buffer. destruct (blen b <=? 1) eqn:E; [discriminate|].
  destruct b as [|b0 b]; [discriminate|]. rewrite rd_0. cbn [rbind]. destruct (find_kdf_algo _); discriminate.
Qed.
Lemma kdf_parse_safe b : kdf_meta_create_with_buffer b <> UB.
Proof.
  unfold kdf_meta_create_with_buffer. pose proof (kdf_size_safe b) as Hs. destruct (kdf_meta_size_with_buffer b) as [n| |] eqn:E; [|discriminate|congruence].
  cbn [rbind]. destruct (N.eqb_spec n 0); [discriminate|]. destruct b as [b|]; [|cbn in E; congruence].
  destruct (blen b <? n) eqn:E2; [discriminate|]. destruct b as [|b0 b]; [rewrite blen_nil in E2; lia|]. rewrite rd_0. cbn [rbind].
  destruct (find_kdf_algo _); [|discriminate]. cbn [lift rbind]. destruct (buffer_copy_section _ _ _); [|discriminate]. apply lift_notUB.
Qed.
Lemma kdf_parse_inv b m : kdf_meta_create_with_buffer (Some b) = Val m -> good_kdf_meta m /\ exists rest, b = kdf_wire m ++ rest.
Proof.
  unfold kdf_meta_create_with_buffer. destruct (kdf_meta_size_with_buffer (Some b)) as [n| |]; [|discriminate|discriminate]. cbn [rbind].
  destruct (n =? 0); [discriminate|]. destruct (blen b <? n); [discriminate|]. destruct b as [|b0 b]; [discriminate|]. rewrite rd_0. cbn [rbind].
  destruct (find_kdf_algo (b2n b0)) as [a|] eqn:Ef; [|discriminate]. cbn [lift rbind].
  destruct (buffer_copy_section _ _ _) as [s|] eqn:S; [|discriminate]. cbn [lift rbind].
  apply section_inv in S. destruct S as (p & z & W & Lp & Ls & _).
  destruct p as [|x [|y p]]; rewrite ?blen_cons, ?blen_nil in Lp; try lia.
  assert (E3 : b0 = x /\ b = s ++ z) by (injection W as -> ->; auto). destruct E3 as (<- & ->).
  apply kdf_find_Some in Ef. destruct Ef as [En Ha]. destruct (kdf_find_id a Ha) as (_ & _ & Hk).
  unfold kdf_meta_create. destruct (ka_kind a) eqn:Ek; [| |congruence]; (rewrite Ls, N.eqb_refl; cbn [negb lift]; intros H; injection H as <-;
    split; [split; [exact Ha|split; [reflexivity|exists s; split; [reflexivity|exact Ls]]]|];
    exists z; unfold kdf_wire; cbn [km_algo km_salt bytes_of app]; rewrite <- En, n2b_b2n; reflexivity).
Qed.

(* the statements of Props/PropsCodec.v *)
Lemma result_roundtrip r : good_result r -> within_limit (blen (result_wire r)) ->
  cipher_result_serialize (Some r) = Some (result_wire r) /\
  cipher_result_from_buffer (Some (result_wire r)) = Val r.
Proof. intros G L. split; [apply result_serialize_ok|apply result_parse_ok]; assumption. Qed.
Lemma result_accept b :
  cipher_result_from_buffer b <> UB /\
  forall r, cipher_result_from_buffer b = Val r -> good_result r /\ b = Some (result_wire r) /\ cipher_result_serialize (Some r) = b.
Proof.
  split; [apply result_parse_safe|]. intros r H. apply result_parse_inv in H. destruct H as (G & -> & L).
  repeat split; try apply G. apply result_serialize_ok; assumption.
Qed.
Lemma concat_multi_Some l b : buffer_concat_multi l = Some b -> b = concat (map obytes l) /\ within_limit (blen b).
Proof. unfold buffer_concat_multi. intros H. apply buffer_create_Some in H. destruct H as [-> H]. split; [reflexivity|apply size_ok_limit; exact H]. Qed.
Lemma concat_multi_None l b : b = concat (map obytes l) -> library_limit < blen b -> buffer_concat_multi l = None.
Proof.
  intros -> L. destruct (buffer_concat_multi l) as [b|] eqn:E; [|reflexivity]. apply concat_multi_Some in E. destruct E as [-> E].
  unfold within_limit in E. lia.
Qed.
Lemma result_too_big r : library_limit < blen (result_wire r) -> good_result r -> cipher_result_serialize (Some r) = None.
Proof.
  intros L G. unfold cipher_result_serialize, cipher_result_is_valid. rewrite result_wire_eq in * by exact G.
  destruct G as [G _]. destruct r as [c iv text tag]. cbn [cr_cipher cr_iv cr_text cr_tag] in *.
  destruct c; cbn [is_authenticated negb andb].
  - destruct G as (Hiv & t & -> & Ht). cbn [negb]. eapply concat_multi_None; [|exact L].
    cbn [map concat obytes bytes_of]. rewrite app_nil_r. reflexivity.
  - destruct G as (Hiv & ->). eapply concat_multi_None; [|exact L].
    cbn [map concat obytes bytes_of app]. rewrite app_nil_r. reflexivity.
Qed.
Lemma key_accept b : blen b < two64 ->
  cipher_key_from_buffer (Some b) <> UB /\
  forall k, cipher_key_from_buffer (Some b) = Val k -> good_key k /\ exists rest, b = key_wire k ++ rest.
Proof. intros Hb. split; [apply key_parse_safe|]. intros k. apply key_parse_inv. exact Hb. Qed.
Lemma sig_serialize_143 s b : blen (es_sig s) < 2 ^ 63 -> ecdsa_result_serialize (Some s) = Some b -> length b = 143%nat.
Proof.
  intros Hb H. destruct s as [c d sig]. cbn [es_sig] in Hb. assert (Hl : blen sig <= 141).
  { unfold ecdsa_result_serialize in H. destruct c. cbn [es_curve es_sig signature_size] in H. unfold ECDSA_HEADER_SIZE in H.
    destruct (143 <? wadd64 (blen sig) 2) eqn:E; [discriminate|]. unfold wadd64 in E. rewrite N.mod_small in E by (unfold two64; lia). lia. }
  destruct sig as [|x sig].
  - destruct c, d; vm_compute in H; apply Some_inj in H; subst b; reflexivity.
  - assert (G : good_sig {| es_curve := c; es_digest := d; es_sig := x :: sig |}) by (unfold good_sig, blen in *; cbn [es_sig length] in *; lia).
    rewrite (sig_serialize_ok _ G) in H. apply Some_inj in H. subst b. apply sig_wire_length, G.
Qed.
Lemma sig_serialize_long s : 141 < blen (es_sig s) -> blen (es_sig s) < 2 ^ 63 -> ecdsa_result_serialize (Some s) = None.
Proof.
  intros H1 H2. destruct s as [c d sig]. cbn [es_sig] in *. unfold ecdsa_result_serialize. destruct c. cbn [es_curve es_sig signature_size]. unfold ECDSA_HEADER_SIZE.
  destruct (143 <? wadd64 (blen sig) 2) eqn:E; [reflexivity|]. unfold wadd64 in E. rewrite N.mod_small in E by (unfold two64; lia). lia.
Qed.
Lemma sig_roundtrip s : good_sig s -> ecdsa_result_serialize (Some s) = Some (sig_wire s) /\ length (sig_wire s) = 143%nat /\
  ecdsa_result_create_from_buffer (Some (sig_wire s)) = Val s.
Proof. intros G. repeat split; [apply sig_serialize_ok|apply sig_wire_length|apply sig_parse_ok]; exact G. Qed.
Lemma sig_canonical b1 b2 s : length b1 = 143%nat -> length b2 = 143%nat ->
  ecdsa_result_create_from_buffer (Some b1) = Val s -> ecdsa_result_create_from_buffer (Some b2) = Val s ->
  nth_error b1 0 = nth_error b2 0 /\ nth_error b1 1 = nth_error b2 1 /\
  skipn (143 - length (es_sig s)) b1 = skipn (143 - length (es_sig s)) b2 /\
  ecdsa_result_serialize (Some s) = Some (sig_wire s).
Proof.
  intros L1 L2 H1 H2. apply sig_parse_inv in H1, H2. destruct H1 as (p1 & -> & P1 & N1). destruct H2 as (p2 & -> & P2 & _).
  cbn [length] in L1, L2. rewrite app_length in L1, L2.
  assert (Hlen : (0 < length (es_sig s))%nat) by (destruct (es_sig s); [congruence|cbn; lia]).
  assert (E : length p1 = length p2) by lia. replace (blen p2) with (blen p1) by (unfold blen; lia).
  split; [reflexivity|]. split; [reflexivity|]. split.
  - replace (143 - length (es_sig s))%nat with (2 + length p1)%nat by lia. cbn [Nat.add skipn].
    rewrite skipn_app, skipn_all, Nat.sub_diag. rewrite E, skipn_app, skipn_all, Nat.sub_diag. reflexivity.
  - apply sig_serialize_ok. unfold good_sig. lia.
Qed.
Lemma kdf_roundtrip m rest : good_kdf_meta m -> blen rest <= library_limit ->
  kdf_meta_serialize (Some m) = Some (kdf_wire m) /\
  kdf_meta_create_with_buffer (Some (kdf_wire m ++ rest)) = Val m /\
  kdf_meta_size_with_buffer (Some (kdf_wire m ++ rest)) = Val (blen (kdf_wire m)).
Proof. intros G L. destruct (kdf_parse_ok m rest G L). split; [apply kdf_serialize_ok, G|]. split; assumption. Qed.
Lemma kdf_accept b :
  kdf_meta_create_with_buffer (Some b) <> UB /\ kdf_meta_size_with_buffer (Some b) <> UB /\ kdf_meta_size_with_buffer (Some b) <> Null /\
  forall m, kdf_meta_create_with_buffer (Some b) = Val m -> good_kdf_meta m /\ exists rest, b = kdf_wire m ++ rest.
Proof.
  split; [apply kdf_parse_safe|]. split; [apply kdf_size_safe|]. split.
  - unfold kdf_meta_size_with_buffer. destruct (blen b <=? 1); [discriminate|]. destruct b; [cbn; discriminate|]. rewrite rd_0. cbn [rbind]. destruct (find_kdf_algo _); discriminate.
  - intros m. apply kdf_parse_inv.
Qed.
(* every password KDF the library can create parameters for is one of the five *)
Lemma kdf_create_good a s i m : In a [KDF_SCRYPT_2_17; KDF_SCRYPT_2_18; KDF_SCRYPT_2_19; KDF_SCRYPT_2_20; KDF_BCRYPT_15] ->
  kdf_meta_create a s i = Some m -> i = None -> good_kdf_meta m.
Proof.
  intros Ha H ->. destruct (kdf_find_id a Ha) as (_ & _ & Hk). unfold kdf_meta_create in H.
  destruct (ka_kind a) eqn:E; [| |congruence]; destruct s as [s|]; try discriminate;
  (destruct (N.eqb_spec (blen s) (ka_salt_size a)) as [El|]; [|discriminate]; cbn [negb] in H; apply Some_inj in H; subst m;
   split; [exact Ha|split; [reflexivity|exists s; split; [reflexivity|exact El]]]).
Qed.
