(* Proofs about transport packets (C27, C28) *)
From Coq Require Import ZifyBool ZifyNat ZifyN.
From Verif.Base Require Import Bytes Monad.
From Verif.Model Require Import Buffer Cipher Ecdsa Prims Engine Identity TransportPacket.
From Verif.Spec Require Import BufferSpec CodecSpec IdentitySpec TransportSpec.
From Verif.Proofs Require Import BytesFacts BufferFacts BufferProps CodecFacts EngineFacts IdentityFacts IdentityProps CacheFacts.
Ltac Zify.zify_post_hook ::= Z.div_mod_to_equations.
Local Open Scope N_scope.

Lemma nibbles_sweep : forall b : byte, let n := b2n b in
  N.lor (N.shiftl (N.shiftr (N.land n 240) 4) 4) (N.land n 15) = n /\ N.land n 15 < 16 /\ N.shiftr (N.land n 240) 4 < 16 /\
  n = 16 * N.shiftr (N.land n 240) 4 + N.land n 15.
Proof. intros b. destruct b; vm_compute; repeat split. Qed.
Lemma nibbles_make t m : t < 2 -> m < 16 -> N.lor (N.shiftl t 4) m = 16 * t + m.
Proof.
  intros A B. assert (C : forallb (fun t => forallb (fun m => N.lor (N.shiftl t 4) m =? 16 * t + m) (map N.of_nat (seq 0 16))) (map N.of_nat (seq 0 2)) = true) by (vm_compute; reflexivity).
  rewrite forallb_forall in C. specialize (C t). rewrite forallb_forall in C.
  apply N.eqb_eq, C; apply in_map_iff; [exists (N.to_nat t)|exists (N.to_nat m)]; (split; [lia|apply in_seq; lia]).
Qed.
Lemma le8_dec n : n < 2 ^ 64 -> le_dec (le_enc 8 n) = n.
Proof. intros H. rewrite le_dec_enc; [reflexivity|exact H]. Qed.
Lemma meta_wire_eq m : good_meta m ->
  meta_wire m = n2b (N.lor (N.shiftl (body_type (tm_body m)) 4) (tm_mac m)) :: match tm_body m with Handshake v f => n2b v :: le_enc 8 f | Ciphertext s => le_enc 8 s end.
Proof.
  intros [A B]. unfold meta_wire, body_type. destruct (tm_body m); rewrite nibbles_make by lia.
  - apply (f_equal2 (@cons byte)); [f_equal; lia|reflexivity].
  - apply (f_equal2 (@cons byte)); [f_equal; lia|reflexivity].
Qed.
Definition meta_size (m : tmeta) : N := match tm_body m with Handshake _ _ => 10 | Ciphertext _ => 9 end.
Lemma meta_wire_len m : blen (meta_wire m) = meta_size m.
Proof. unfold meta_wire, meta_size, blen. destruct (tm_body m); cbn [length]; rewrite le_enc_length; reflexivity. Qed.
Lemma meta_serialize_ok m : good_meta m -> tmeta_serialize m = Some (meta_wire m).
Proof.
  intros G. unfold tmeta_serialize. cbv zeta. pose proof (meta_wire_len m) as L. unfold meta_size in L. rewrite (meta_wire_eq m G) in *. destruct (tm_body m);
  (apply create_limit; rewrite L; unfold within_limit, library_limit; lia).
Qed.
Lemma memread_mid (a x z : bytes) st ln : blen a = st -> blen x = ln -> memread (a ++ x ++ z) st ln = Val x.
Proof.
  intros <- <-. rewrite memread_ok by (rewrite !blen_app; lia). unfold slice, blen. rewrite !Nat2N.id.
  rewrite skipn_app, skipn_all, Nat.sub_diag. cbn [app skipn]. rewrite firstn_app, firstn_all, Nat.sub_diag. cbn [firstn]. rewrite app_nil_r. reflexivity.
Qed.
Lemma b0_parts t m : t < 2 -> m < 16 -> b2n (n2b (N.lor (N.shiftl t 4) m)) = 16 * t + m.
Proof. intros A B. rewrite nibbles_make by assumption. apply b2n_n2b_small. lia. Qed.
Lemma nib_hi t m : t < 16 -> m < 16 -> N.shiftr (N.land (16 * t + m) 240) 4 = t /\ N.land (16 * t + m) 15 = m.
Proof.
  intros A B. destruct (nibbles_sweep (n2b (16 * t + m))) as (_ & X & Y & Z). rewrite b2n_n2b_small in * by lia. split; lia.
Qed.
Lemma meta_parse_ok m rest : good_meta m -> tmeta_parse (meta_wire m ++ rest) = Val (m, meta_size m).
Proof.
  intros G. unfold tmeta_parse. pose proof (meta_wire_len m) as L.
  replace (blen (meta_wire m ++ rest) <=? 1) with false by (rewrite blen_app, L; unfold meta_size; destruct (tm_body m); lia).
  assert (L' : meta_size m <= blen (meta_wire m ++ rest)) by (rewrite blen_app, L; lia).
  rewrite (meta_wire_eq m G) in *. rewrite <- app_comm_cons in *. rewrite rd_0. cbn [rbind]. cbv zeta.
  destruct G as [G1 G2]. rewrite b0_parts by (unfold body_type; destruct (tm_body m); lia).
  destruct (nib_hi (body_type (tm_body m)) (tm_mac m)) as [-> ->]; [unfold body_type; destruct (tm_body m); lia|exact G1|].
  unfold meta_size in *. destruct m as [[v f|s] mac]; cbn [tm_body tm_mac body_type] in *.
  - destruct (N.eqb_spec 0 1); [lia|]. destruct (N.eqb_spec 0 0); [|lia]. replace (10 <=? _) with true by lia.
    rewrite <- app_comm_cons. match goal with |- context [rd (?a :: ?b :: ?c) 1] => change (rd (a :: b :: c) 1) with (Val b) end. cbn [rbind].
    match goal with |- context [memread (?a :: ?b :: le_enc 8 f ++ rest) 2 8] => change (memread (a :: b :: le_enc 8 f ++ rest) 2 8) with (memread ([a; b] ++ le_enc 8 f ++ rest) 2 8) end.
    rewrite memread_mid by (unfold blen; rewrite ?le_enc_length; reflexivity). cbn [rbind]. rewrite b2n_n2b_small by lia. rewrite le8_dec by lia. reflexivity.
  - destruct (N.eqb_spec 1 1); [|lia]. replace (9 <=? _) with true by lia.
    match goal with |- context [memread (?a :: le_enc 8 s ++ rest) 1 8] => change (memread (a :: le_enc 8 s ++ rest) 1 8) with (memread ([a] ++ le_enc 8 s ++ rest) 1 8) end.
    rewrite memread_mid by (unfold blen; rewrite ?le_enc_length; reflexivity). cbn [rbind]. rewrite le8_dec by lia. reflexivity.
Qed.
Lemma split_8 (l : bytes) : 8 <= blen l -> exists x z, l = x ++ z /\ length x = 8%nat.
Proof. intros H. exists (firstn 8 l), (skipn 8 l). split; [symmetry; apply firstn_skipn|]. rewrite firstn_length. unfold blen in H. lia. Qed.
Lemma le_dec_8 x : length x = 8%nat -> le_dec x < 2 ^ 64 /\ le_enc 8 (le_dec x) = x.
Proof. intros H. split; [pose proof (le_dec_lt x) as L; unfold blen in L; rewrite H in L; exact L|rewrite <- H; apply le_enc_dec]. Qed.
Lemma meta_parse_inv b m n : tmeta_parse b = Val (m, n) -> good_meta m /\ n = meta_size m /\ exists rest, b = meta_wire m ++ rest.
Proof.
  unfold tmeta_parse. destruct (blen b <=? 1) eqn:E0; [discriminate|]. destruct b as [|b0 b]; [discriminate|]. rewrite rd_0. cbn [rbind]. cbv zeta.
  destruct (nibbles_sweep b0) as (N1 & N2 & N3 & N4). set (t := N.shiftr _ 4) in *. set (mc := N.land _ 15) in *.
  destruct (N.eqb_spec t 1) as [T|T]; [|destruct (N.eqb_spec t 0) as [T0|T0]; [|discriminate]].
  - destruct (9 <=? blen (b0 :: b)) eqn:L; [|discriminate]. rewrite blen_cons in L. destruct (split_8 b) as (x & z & -> & X); [lia|].
    destruct (le_dec_8 x X) as [X1 X2].
    change (b0 :: x ++ z) with ([b0] ++ x ++ z). rewrite memread_mid by (unfold blen; rewrite ?X; reflexivity). cbn [rbind]. intros H. apply Val_inj in H.
    apply pair_equal_spec in H. destruct H as [<- <-].
    assert (G : good_meta {| tm_body := Ciphertext (le_dec x); tm_mac := mc |}) by (split; [exact N2|exact X1]).
    split; [exact G|]. split; [reflexivity|]. exists z.
    rewrite (meta_wire_eq _ G). cbn [tm_body tm_mac body_type]. rewrite X2. rewrite <- T, N1. rewrite n2b_b2n. reflexivity.
  - destruct (10 <=? blen (b0 :: b)) eqn:L; [|discriminate]. rewrite blen_cons in L. destruct b as [|b1 b]; [rewrite blen_nil in L; lia|]. rewrite blen_cons in L.
    destruct (split_8 b) as (x & z & -> & X); [lia|]. destruct (le_dec_8 x X) as [X1 X2].
    change (rd (b0 :: b1 :: x ++ z) 1) with (Val b1). cbn [rbind].
    change (b0 :: b1 :: x ++ z) with ([b0; b1] ++ x ++ z). rewrite memread_mid by (unfold blen; rewrite ?X; reflexivity). cbn [rbind]. intros H. apply Val_inj in H.
    apply pair_equal_spec in H. destruct H as [<- <-]. pose proof (b2n_lt b1).
    assert (G : good_meta {| tm_body := Handshake (b2n b1) (le_dec x); tm_mac := mc |}) by (split; [exact N2|split; [assumption|exact X1]]).
    split; [exact G|]. split; [reflexivity|]. exists z.
    rewrite (meta_wire_eq _ G). cbn [tm_body tm_mac body_type]. rewrite X2. rewrite <- T0, N1. rewrite !n2b_b2n. reflexivity.
Qed.
Lemma meta_parse_safe b : tmeta_parse b <> UB.
Proof.
  unfold tmeta_parse. destruct (blen b <=? 1) eqn:E0; [discriminate|]. destruct b as [|b0 b]; [discriminate|]. rewrite rd_0. cbn [rbind]. cbv zeta.
  destruct (_ =? 1); [|destruct (_ =? 0); [|discriminate]].
  - destruct (9 <=? _) eqn:L; [|discriminate]. rewrite memread_ok by lia. discriminate.
  - destruct (10 <=? _) eqn:L; [|discriminate]. let H := fresh in destruct (rd_ok (b0 :: b) 1) as [? H]; [unfold blen in L; lia|rewrite H]. cbn [rbind]. rewrite memread_ok by lia. discriminate.
Qed.

(* --- packets *)
Lemma packet_serialize_eq p b : good_meta (tp_meta p) -> tpacket_serialize p = Some b -> b = packet_wire p /\ within_limit (blen b).
Proof.
  intros G. unfold tpacket_serialize. rewrite (meta_serialize_ok _ G). intros H. apply concat_multi_Some in H. destruct H as [H L]. split; [|exact L].
  rewrite H. cbn [map concat obytes]. unfold packet_wire. rewrite app_nil_r. destruct (tp_mac p); reflexivity.
Qed.
Lemma packet_serialize_ok p : good_meta (tp_meta p) -> blen (packet_wire p) <= library_limit -> tpacket_serialize p = Some (packet_wire p).
Proof.
  intros G L. unfold tpacket_serialize. rewrite (meta_serialize_ok _ G). apply concat_multi_limit.
  - cbn [map concat obytes]. unfold packet_wire. rewrite app_nil_r. destruct (tp_mac p); reflexivity.
  - split; [|exact L]. unfold packet_wire. rewrite blen_app, meta_wire_len. unfold meta_size. destruct (tm_body _); lia.
Qed.
Lemma packet_parse_ok p : good_tpacket p -> blen (packet_wire p) <= library_limit ->
  tpacket_create_from_buffer (Some (packet_wire p)) = Val (set_network p (Some (packet_wire p))).
Proof.
  intros (G & B & M) L. unfold tpacket_create_from_buffer. unfold packet_wire at 1. rewrite (meta_parse_ok _ _ G). cbn [rbind]. cbv zeta beta iota.
  assert (LB : 0 < blen (tp_body p)) by (destruct (tp_body p); [congruence|rewrite blen_cons; lia]).
  assert (LM : blen (bytes_of (tp_mac p)) = if tm_mac (tp_meta p) =? MAC_EC_P521 then 143 else 0).
  { destruct (_ =? MAC_EC_P521); [destruct M as (m & -> & M); unfold blen; cbn [bytes_of]; rewrite M; reflexivity|rewrite M; reflexivity]. }
  assert (S0 : 0 < meta_size (tp_meta p) < 100) by (unfold meta_size; destruct (tm_body _); lia).
  assert (LW : blen (packet_wire p) = meta_size (tp_meta p) + blen (tp_body p) + blen (bytes_of (tp_mac p))) by (unfold packet_wire; rewrite !blen_app, meta_wire_len; lia).
  change (signature_size P521) with 143. unfold library_limit in L.
  destruct (tm_mac (tp_meta p) =? MAC_EC_P521) eqn:T.
  - destruct M as (m & Em & M). rewrite Em in *. cbn [bytes_of] in *. replace (blen (packet_wire p) <=? _) with false by lia.
    destruct (N.eqb_spec 143 0); [lia|].
    replace (buffer_copy_section (packet_wire p) (blen (packet_wire p) - 143) 143) with (Some m).
    2:{ symmetry. replace (packet_wire p) with ((meta_wire (tp_meta p) ++ tp_body p) ++ m) at 1 by (unfold packet_wire; rewrite Em, <- app_assoc; reflexivity).
        apply section_end; unfold MAX_BUFFER_SIZE; try lia. rewrite blen_app, meta_wire_len. lia. }
    cbn [lift rbind].
    replace (buffer_copy_section (packet_wire p) (meta_size (tp_meta p)) (blen (packet_wire p) - 143 - meta_size (tp_meta p))) with (Some (tp_body p)).
    2:{ symmetry. unfold packet_wire at 1. apply section_pre; unfold MAX_BUFFER_SIZE; try lia. apply meta_wire_len. }
    cbn [lift rbind tpacket_create]. rewrite copy_limit by (unfold within_limit, library_limit; lia). cbn [lift rbind].
    destruct p as [nw bd mc mt]. cbn [tp_mac] in Em. subst mc. reflexivity.
  - rewrite M in *. cbn [bytes_of] in *. replace (blen (packet_wire p) <=? _) with false by lia.
    destruct (N.eqb_spec 0 0); [|lia]. cbn [lift rbind].
    replace (buffer_copy_section (packet_wire p) (meta_size (tp_meta p)) (blen (packet_wire p) - 0 - meta_size (tp_meta p))) with (Some (tp_body p)).
    2:{ symmetry. unfold packet_wire at 1. apply section_pre; unfold MAX_BUFFER_SIZE; try lia. apply meta_wire_len. }
    cbn [lift rbind tpacket_create]. rewrite copy_limit by (unfold within_limit, library_limit; lia). cbn [lift rbind].
    destruct p as [nw bd mc mt]. cbn [tp_mac] in M. subst mc. reflexivity.
Qed.
Lemma packet_parse_inv b p : tpacket_create_from_buffer (Some b) = Val p ->
  good_tpacket p /\ packet_wire p = b /\ tp_network p = Some b /\ within_limit (blen b).
Proof.
  unfold tpacket_create_from_buffer. intros H. apply rbind_Val in H. destruct H as ([m n] & Hm & H). apply meta_parse_inv in Hm.
  destruct Hm as (G & -> & rest & ->). cbv zeta beta iota in H. change (signature_size P521) with 143 in H. set (b := meta_wire m ++ rest) in *.
  assert (S0 : 0 < meta_size m < 100) by (unfold meta_size; destruct (tm_body _); lia).
  destruct (blen b <=? _) eqn:L; [discriminate|]. apply rbind_Val in H. destruct H as (mac & Hmac & H). apply rbind_Val in H. destruct H as (body & Hbody & H).
  apply lift_Val' in Hbody. cbn [tpacket_create lift rbind] in H. apply rbind_Val in H. destruct H as (net & Hnet & H). apply lift_Val' in Hnet.
  apply buffer_copy_Some in Hnet. destruct Hnet as [En Hnet]. apply Some_inj in En. rewrite <- En in *. clear En net. apply Val_inj in H. subst p. apply section_inv in Hbody. destruct Hbody as (a & z & Eb & La & Lb & B0 & B1 & Ea & Ez).
  assert (LW : blen b = meta_size m + blen rest) by (unfold b; rewrite blen_app, meta_wire_len; reflexivity).
  assert (A : a = meta_wire m /\ body ++ z = rest).
  { apply (app_inj_length_l' a (meta_wire m) (body ++ z) rest); [rewrite <- Eb; reflexivity|]. pose proof (meta_wire_len m). unfold blen in *. lia. }
  destruct A as [-> Er]. symmetry in Er. rewrite Er in LW. rewrite blen_app in LW.
  split; [|split; [|split; [reflexivity|exact Hnet]]].
  - split; [exact G|]. split; [cbn [set_network set_mac tp_body]; intros ->; rewrite blen_nil in Lb; lia|]. cbn [set_network set_mac tp_meta tp_mac].
    destruct (tm_mac m =? MAC_EC_P521).
    + destruct (N.eqb_spec 143 0); [lia|]. apply rbind_Val in Hmac. destruct Hmac as (x & Hx & Hmac). apply lift_Val' in Hx. apply Val_inj in Hmac. subst mac.
      exists x. split; [reflexivity|]. apply section_inv in Hx. destruct Hx as (? & ? & _ & _ & Lx & _). unfold blen in Lx. lia.
    + destruct (N.eqb_spec 0 0); [|lia]. apply Val_inj in Hmac. congruence.
  - unfold packet_wire. cbn [set_network set_mac tp_meta tp_mac tp_body]. unfold b. rewrite Er. apply (f_equal2 (@app byte)); [reflexivity|]. apply (f_equal2 (@app byte)); [reflexivity|].
    destruct (tm_mac m =? MAC_EC_P521).
    + destruct (N.eqb_spec 143 0); [lia|]. apply rbind_Val in Hmac. destruct Hmac as (x & Hx & Hmac). apply lift_Val' in Hx. apply Val_inj in Hmac. subst mac. cbn [bytes_of].
      apply section_inv in Hx. destruct Hx as (a' & z' & Ex & La' & Lx & _ & _ & _ & _).
      assert (Z' : z' = []) by (destruct z'; [reflexivity|]; pose proof (f_equal blen Ex) as F; rewrite !blen_app, blen_cons in F; lia). subst z'. rewrite app_nil_r in Ex.
      assert (A : a' = meta_wire m ++ body /\ x = z); [|apply A].
      apply (app_inj_length_l' a' (meta_wire m ++ body) x z); [rewrite <- Ex, <- app_assoc; exact Eb|].
      rewrite app_length. pose proof (meta_wire_len m). unfold blen in *. lia.
    + destruct (N.eqb_spec 0 0); [|lia]. apply Val_inj in Hmac. subst mac. cbn [bytes_of]. destruct z; [reflexivity|]. rewrite blen_cons in LW. lia.
Qed.
Lemma packet_parse_safe b : tpacket_create_from_buffer b <> UB.
Proof.
  destruct b as [b|]; [|discriminate]. unfold tpacket_create_from_buffer. pose proof (meta_parse_safe b). destruct (tmeta_parse b) as [[m n]| |]; cbn [rbind]; [|discriminate|congruence].
  cbv zeta. destruct (blen b <=? _); [discriminate|]. destruct (_ =? 0).
  - cbn [rbind]. destruct (buffer_copy_section _ _ _); [|discriminate]. cbn [lift rbind tpacket_create]. destruct (buffer_copy _); discriminate.
  - destruct (buffer_copy_section b (blen b - _) _); [|discriminate]. cbn [lift rbind].
    destruct (buffer_copy_section _ _ _); [|discriminate]. cbn [lift rbind tpacket_create]. destruct (buffer_copy _); discriminate.
Qed.

(* --- signatures *)
Lemma verify_eq P q d m n sg : tp_mac q = Some m -> tm_mac (tp_meta q) = MAC_EC_P521 -> 
  (match tp_network q with Some n => Some n | None => tpacket_serialize q end) = Some n ->
  fst (chain_validate P d) = true -> blen m < blen n -> ecdsa_result_create_from_buffer (Some m) = Val sg ->
  fst (fst (tpacket_verify P q d)) = Val (ec_verify P (Some sg) (Some (id_key (ch_node d))) (Some (firstn (N.to_nat (blen n - blen m)) n))).
Proof.
  intros A B C D E F. unfold tpacket_verify. rewrite A, B, C. destruct (N.eqb_spec MAC_EC_P521 MAC_EC_P521) as [_|]; [|congruence]. cbn [negb].
  destruct (validate_fields P d) as (_ & V & _). destruct (chain_validate P d) as [v d']. cbn [fst snd] in *. subst v. cbn [negb].
  replace (blen n <=? blen m) with false by lia. rewrite F. cbn [fst]. rewrite V. reflexivity.
Qed.
Lemma firstn_blen (a b : bytes) : firstn (N.to_nat (blen (a ++ b) - blen b)) (a ++ b) = a.
Proof.
  replace (N.to_nat (blen (a ++ b) - blen b)) with (length a + 0)%nat by (rewrite blen_app; unfold blen; lia).
  rewrite firstn_app_2. cbn [firstn]. apply app_nil_r.
Qed.
Lemma signed_verifies P c s p p' s' : ec_ok P -> gen_ok P -> sign_ok P -> engine_key P (id_key (ch_node c)) ->
  good_meta (tp_meta p) -> tp_body p <> [] -> tp_mac p = None -> tpacket_sign P p c s = (Val (true, p'), s') ->
  exists b, tpacket_serialize p' = Some b /\ tp_network p' = Some b /\
  exists q, tpacket_create_from_buffer (Some b) = Val q /\ tp_meta q = {| tm_body := tm_body (tp_meta p); tm_mac := MAC_EC_P521 |} /\ tp_body q = tp_body p /\
  forall d, pub_of (ch_node d) = pub_of (ch_node c) -> fst (chain_validate P d) = true ->
    fst (fst (tpacket_verify P q d)) = Val true /\ fst (fst (tpacket_verify P p' d)) = Val true.
Proof.
  intros EO GO SO EK [G1 G2] B M. unfold tpacket_sign. cbv zeta. destruct (ek_curve (id_key (ch_node c))).
  assert (GM : good_meta {| tm_body := tm_body (tp_meta p); tm_mac := MAC_EC_P521 |}) by (split; [reflexivity|exact G2]).
  destruct (tpacket_serialize (set_mac_type p MAC_EC_P521)) as [data|] eqn:E; [|discriminate]. apply packet_serialize_eq in E; [|exact GM]. destruct E as [E L].
  intros H. apply mbind_Val in H. destruct H as (sg & s1 & S & H). apply mtry_Val in S. destruct sg as [sg|]; [|discriminate].
  apply identity_sign_verifies in S; try assumption. destruct S as (V & GS & _). rewrite (sig_serialize_ok sg GS) in H.
  pose proof (sig_wire_length sg GS) as LS.
  set (p1 := set_mac_type (set_mac p (Some (sig_wire sg))) MAC_EC_P521) in *.
  assert (W : packet_wire p1 = data ++ sig_wire sg).
  { rewrite E. unfold packet_wire, p1, set_mac_type, set_mac. cbn [tp_meta tp_body tp_mac tm_body bytes_of]. rewrite M. cbn [bytes_of]. rewrite app_nil_r, <- app_assoc. reflexivity. }
  destruct (tpacket_serialize p1) as [net|] eqn:N; unfold mret, mres in H; apply pair_equal_spec in H; destruct H as [H _]; apply Val_inj in H; apply pair_equal_spec in H; destruct H as [T <-]; [|discriminate].
  pose proof N as N'. apply packet_serialize_eq in N'; [|exact GM]. destruct N' as [N' LN].
  exists net. split; [unfold tpacket_serialize in *; exact N|]. split; [reflexivity|].
  assert (GP : good_tpacket p1). { split; [exact GM|]. split; [exact B|]. cbn. exists (sig_wire sg). split; [reflexivity|exact LS]. }
  exists (set_network p1 (Some (packet_wire p1))). split; [rewrite N'; apply packet_parse_ok; [exact GP|rewrite <- N'; apply LN]|].
  split; [reflexivity|]. split; [reflexivity|]. intros d PU VA.
  assert (X : ec_verify P (Some sg) (Some (id_key (ch_node d))) (Some data) = true) by (rewrite (verify_pub P _ _ (id_key (ch_node c))); [exact V|exact PU]).
  split; (erewrite (verify_eq P _ d (sig_wire sg) net sg); [|reflexivity|reflexivity| |exact VA| |apply sig_parse_ok; exact GS]).
  - rewrite N', W, firstn_blen, X. reflexivity.
  - cbn [set_network tp_network]. rewrite N'. reflexivity.
  - rewrite N', W, blen_app. rewrite E. unfold packet_wire. rewrite blen_app, meta_wire_len. unfold meta_size. destruct (tm_body _); lia.
  - rewrite N', W, firstn_blen, X. reflexivity.
  - reflexivity.
  - rewrite N', W, blen_app. rewrite E. unfold packet_wire. rewrite blen_app, meta_wire_len. unfold meta_size. destruct (tm_body _); lia.
Qed.
Lemma verified_covers P b q d : tpacket_create_from_buffer (Some b) = Val q -> fst (fst (tpacket_verify P q d)) = Val true ->
  fst (chain_validate P d) = true /\
  exists content mac sg, b = content ++ mac /\ length mac = 143%nat /\ ecdsa_result_create_from_buffer (Some mac) = Val sg /\
    ec_verify P (Some sg) (Some (id_key (ch_node d))) (Some content) = true.
Proof.
  intros H. apply packet_parse_inv in H. destruct H as ((G & B & M) & W & N & L). unfold tpacket_verify. rewrite N.
  destruct (tp_mac q) as [mac|] eqn:Em; [|discriminate]. destruct (tm_mac (tp_meta q) =? MAC_EC_P521) eqn:T; cbn [negb]; [|discriminate].
  destruct M as (m & M1 & M2). apply Some_inj in M1. subst m.
  destruct (validate_fields P d) as (_ & V & _). destruct (chain_validate P d) as [v d']. cbn [fst snd] in *. destruct v; cbn [negb]; [|discriminate].
  destruct (blen b <=? blen mac) eqn:LB; [discriminate|]. destruct (ecdsa_result_create_from_buffer (Some mac)) as [sg| |] eqn:S; cbn [fst]; try discriminate.
  intros H. apply Val_inj in H. split; [reflexivity|]. exists (meta_wire (tp_meta q) ++ tp_body q), mac, sg.
  assert (EB : b = (meta_wire (tp_meta q) ++ tp_body q) ++ mac) by (rewrite <- W; unfold packet_wire; rewrite Em, <- app_assoc; reflexivity).
  split; [exact EB|]. split; [exact M2|]. split; [exact S|]. rewrite V in H. rewrite EB, firstn_blen in H. exact H.
Qed.
(* a copy verifies exactly like the packet it was made from *)
Lemma copy_verifies P q b c d : tpacket_create_from_buffer (Some b) = Val q -> tpacket_copy (Some q) = Some c ->
  same_packet q c /\ fst (fst (tpacket_verify P c d)) = fst (fst (tpacket_verify P q d)).
Proof.
  intros H C. apply packet_parse_inv in H. destruct H as ((G & B & M) & W & N & L). unfold tpacket_copy in C.
  destruct (buffer_copy (Some (tp_body q))) as [bd|] eqn:E1; [|discriminate]. apply buffer_copy_Some in E1. destruct E1 as [E1 _]. apply Some_inj in E1. subst bd.
  assert (C' : c = {| tp_network := None; tp_body := tp_body q; tp_mac := tp_mac q; tp_meta := tp_meta q |}).
  { destruct (tp_mac q) as [mac|] eqn:E2.
    - destruct (buffer_copy (Some mac)) as [m|] eqn:E3; [|discriminate]. apply buffer_copy_Some in E3. destruct E3 as [E3 _]. apply Some_inj in E3. subst m.
      cbn [tpacket_create option_map] in C. apply Some_inj in C. subst c. reflexivity.
    - cbn [buffer_copy tpacket_create option_map] in C. apply Some_inj in C. subst c. reflexivity. }
  subst c. split; [repeat split|]. unfold tpacket_verify. cbn [tp_mac tp_meta tp_network]. rewrite N.
  destruct (tp_mac q) as [mac|] eqn:Em; [|reflexivity]. destruct (negb _); [reflexivity|]. 
  rewrite packet_serialize_ok.
  - replace (packet_wire _) with b by (rewrite <- W; unfold packet_wire; cbn [tp_meta tp_body tp_mac]; rewrite Em; reflexivity).
    destruct (chain_validate P d) as [v d']. destruct (negb v); [reflexivity|]. destruct (blen b <=? blen mac); [reflexivity|]. destruct (ecdsa_result_create_from_buffer (Some mac)); reflexivity.
  - exact G.
  - replace (packet_wire _) with b by (rewrite <- W; unfold packet_wire; cbn [tp_meta tp_body tp_mac]; rewrite Em; reflexivity). apply L.
Qed.
Lemma packet_roundtrip p b : good_tpacket p -> tpacket_serialize p = Some b ->
  b = packet_wire p /\ exists q, tpacket_create_from_buffer (Some b) = Val q /\ same_packet p q.
Proof.
  intros G E. apply packet_serialize_eq in E; [|apply G]. destruct E as [-> L]. split; [reflexivity|].
  exists (set_network p (Some (packet_wire p))). split; [apply packet_parse_ok; [exact G|apply L]|repeat split].
Qed.
Lemma packet_reserialize b q : tpacket_create_from_buffer (Some b) = Val q -> good_tpacket q /\ tpacket_serialize q = Some b.
Proof.
  intros H. apply packet_parse_inv in H. destruct H as (G & W & N & L). split; [exact G|]. rewrite <- W. apply packet_serialize_ok; [apply G|]. rewrite W. apply L.
Qed.
