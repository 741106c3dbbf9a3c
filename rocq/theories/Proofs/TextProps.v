From Coq Require Import Strings.String.
From Verif.Base Require Import Bytes.
From Verif.Model Require Import Buffer CString Base64 Hex Base32.
From Verif.Spec Require Import TextSpec BufferSpec.
From Verif.Proofs Require Import BytesFacts BufferFacts BufferProps TextFacts TextSafety Base32Facts.
From Coq Require Import ZifyBool ZifyNat ZifyN.
Ltac Zify.zify_post_hook ::= Z.div_mod_to_equations.
Local Open Scope N_scope.

Lemma no_nul_nonnul s : no_nul s <-> nonnul s.
Proof.
  unfold no_nul, nonnul. rewrite Forall_forall. split.
  - intros H c Hc. destruct (Byte.eqb c NUL) eqn:E; [|reflexivity].
    apply byte_eqb_spec in E. subst c. contradiction.
  - intros H Hin. specialize (H _ Hin). discriminate.
Qed.

Lemma base64_encode_prop : forall junk d, blen d < 2 ^ 63 ->
  (0 < blen d -> within_limit (blen (spec_base64 d) + 1) ->
     exists c, base64_encode junk (Some d) = Val c /\
       cb_mem c = (spec_base64 d ++ [x00])%list /\ cb_len c = blen (spec_base64 d)) /\
  (~ (0 < blen d /\ within_limit (blen (spec_base64 d) + 1)) -> base64_encode junk (Some d) = Null).
Proof.
  intros junk d H63. rewrite <- b64_encode_chars_spec.
  assert (EL : blen (b64_encode_chars d) = N.of_nat ((length d + 2) / 3 * 4)).
  { unfold blen. rewrite b64_chars_length. reflexivity. }
  split.
  - intros H0 Hl. apply size_ok_limit in Hl. rewrite EL in Hl.
    rewrite base64_encode_val by assumption. eexists. split; [reflexivity|]. split; reflexivity.
  - intros H. apply base64_encode_null; [exact H63|].
    destruct (N.eq_dec (blen d) 0) as [E|E]; [left; exact E|right].
    rewrite <- EL. unfold within_limit, library_limit, MAX_BUFFER_SIZE in *. lia.
Qed.

Lemma base64_roundtrip_prop : forall sc junk d c, blen d < 2 ^ 63 ->
  base64_encode junk (Some d) = Val c ->
  exists r, base64_decode sc (Some c) = Val r /\ cb_data r = d /\ cb_len r = blen d.
Proof. exact base64_roundtrip. Qed.

Lemma base64_safe_prop : forall sc s rest len,
  no_nul s -> (sc = false \/ ascii s) -> ~ (len = 2 /\ nth_error s 2 = Some (n2b 61)) ->
  base64_decode sc (Some {| cb_mem := (s ++ x00 :: rest)%list; cb_len := len |}) <> UB /\
  (forall r, base64_decode sc (Some {| cb_mem := (s ++ x00 :: rest)%list; cb_len := len |}) = Val r ->
     cb_len r <= blen (cb_mem r)).
Proof. intros sc s rest len Hn Ha Hb. apply base64_decode_safe; [apply no_nul_nonnul; exact Hn|exact Ha|exact Hb]. Qed.

(* hex *)
Lemma hex_encode_prop : forall junk d, blen d < 2 ^ 63 ->
  (within_limit (2 * blen d + 1) ->
     exists c, hex_encode junk (Some d) = Val c /\
       cb_mem c = (spec_hex d ++ [x00])%list /\ cb_len c = blen (spec_hex d)) /\
  (~ within_limit (2 * blen d + 1) -> hex_encode junk (Some d) = Null).
Proof.
  intros junk d H63. rewrite <- hex_chars_spec. split; intros H.
  - rewrite hex_encode_val; [|exact H63|apply H]. eexists. split; [reflexivity|]. split; [reflexivity|].
    cbn [cb_len]. unfold blen. rewrite hex_chars_length. lia.
  - apply hex_encode_null; [exact H63|]. unfold within_limit, library_limit, MAX_BUFFER_SIZE in *. lia.
Qed.
Lemma hex_roundtrip_prop : forall junk junk' d c, 0 < blen d -> blen d < 2 ^ 63 ->
  hex_encode junk (Some d) = Val c -> hex_decode junk' (Some c) = Val d.
Proof. exact hex_roundtrip. Qed.

Lemma strToChar_digits : forall a b h l, hex_digit a = Some h -> hex_digit b = Some l -> strToChar a b = n2b (16 * h + l).
Proof.
  assert (E : forall a b, (match hex_digit a, hex_digit b with
     | Some h, Some l => Byte.eqb (strToChar a b) (n2b (16 * h + l)) | _, _ => true end) = true).
  { apply byte_sweep2. vm_compute. reflexivity. }
  intros a b h l Ha Hb. specialize (E a b). rewrite Ha, Hb in E. apply byte_eqb_spec. exact E.
Qed.
Lemma hex_meaning_pairs s r : hex_meaning s = Some r -> pairs s = r.
Proof.
  revert r. induction s as [|a|a b s IH] using list_ind2; intros r; cbn [hex_meaning pairs].
  - intros [= <-]. reflexivity.
  - discriminate.
  - destruct (hex_digit a) as [h|] eqn:Ea; [|discriminate]. destruct (hex_digit b) as [l|] eqn:Eb; [|discriminate].
    destruct (hex_meaning s) as [r'|]; [|discriminate]. intros [= <-].
    rewrite (IH r' eq_refl), (strToChar_digits a b h l Ea Eb). reflexivity.
Qed.
Lemma hex_meaning_length s r : hex_meaning s = Some r -> blen s / 2 = blen r.
Proof.
  revert r. induction s as [|a|a b s IH] using list_ind2; intros r; cbn [hex_meaning].
  - intros [= <-]. reflexivity.
  - discriminate.
  - destruct (hex_digit a) as [h|]; [|discriminate]. destruct (hex_digit b) as [l|]; [|discriminate].
    destruct (hex_meaning s) as [r'|]; [|discriminate]. intros [= <-].
    specialize (IH r' eq_refl). rewrite !blen_cons. lia.
Qed.
Lemma hex_decode_prop : forall junk s rest len, no_nul s ->
  let input := Some {| cb_mem := (s ++ x00 :: rest)%list; cb_len := len |} in
  hex_decode junk input <> UB /\
  (forall r, hex_meaning s = Some r -> within_limit (blen r) -> hex_decode junk input = Val r) /\
  (~ within_limit (blen s / 2) -> hex_decode junk input = Null) /\
  (within_limit (blen s / 2) -> exists r, hex_decode junk input = Val r /\ blen r = blen s / 2).
Proof.
  intros junk s rest len Hn input. unfold input. apply no_nul_nonnul in Hn.
  rewrite hex_decode_val by exact Hn.
  assert (PL : blen (pairs s) = blen s / 2).
  { clear. induction s as [|a|a b s IH] using list_ind2; cbn [pairs]; [reflexivity|reflexivity|rewrite !blen_cons; lia]. }
  repeat split.
  - destruct (size_ok _); discriminate.
  - intros r Hr Hw. rewrite (hex_meaning_length _ _ Hr). apply size_ok_limit in Hw. rewrite Hw.
    rewrite (hex_meaning_pairs _ _ Hr). reflexivity.
  - intros H. destruct (size_ok _) eqn:E; [|reflexivity]. apply size_ok_limit in E. contradiction.
  - intros H. apply size_ok_limit in H. rewrite H. eauto.
Qed.

(* base32 *)
Lemma map_char_alphabet l : quint l -> Forall (fun c => In c crockford_alphabet) (map b32_char l).
Proof.
  intros H. induction H as [|c l Hc Hl IH]; cbn [map]; constructor; [|exact IH].
  unfold b32_char. change crockford_alphabet with b32_alphabet. apply nth_In.
  change (length b32_alphabet) with 32%nat. lia.
Qed.
Lemma spec_base32_length d : blen (spec_base32 d) = (8 * blen d + 4) / 5.
Proof.
  rewrite <- enc_q_spec. unfold blen. rewrite map_length, enc_q_length.
  pose proof (Nat.div_mod (length d) 5). pose proof (Nat.mod_upper_bound (length d) 5).
  set (q := (length d / 5)%nat) in *. set (r := (length d mod 5)%nat) in *.
  assert (E : length d = (5 * q + r)%nat) by lia. rewrite E.
  assert (Hr : (r < 5)%nat) by lia. clearbody q r.
  destruct r as [|[|[|[|[|r]]]]]; cbn [elen]; lia.
Qed.
Lemma spec_base32_alphabet d : Forall (fun c => In c crockford_alphabet) (spec_base32 d).
Proof. rewrite <- enc_q_spec. apply map_char_alphabet, enc_q_quint. Qed.

Lemma base32_encode_prop : forall d, 0 < blen d -> blen d < 2 ^ 61 - 1 ->
  (within_limit ((8 * blen d + 4) / 5) ->
     exists t, base32_encode (Some d) = Val t /\ t = spec_base32 d /\
       blen t = (8 * blen d + 4) / 5 /\ Forall (fun c => In c crockford_alphabet) t) /\
  (~ within_limit ((8 * blen d + 4) / 5) -> base32_encode (Some d) = Null).
Proof.
  intros d H0 H61. change (2 ^ 61 - 1) with (SIZE_MAX / 8) in H61.
  rewrite <- spec_base32_length.
  assert (EL : blen (enc_q d) = blen (spec_base32 d)) by (rewrite <- enc_q_spec; unfold blen; rewrite map_length; reflexivity).
  rewrite <- EL. split; intros H.
  - exists (spec_base32 d). split.
    + rewrite <- enc_q_spec. apply base32_encode_val; [exact H0|exact H61|apply size_ok_limit; exact H].
    + split; [reflexivity|]. split; [symmetry; exact EL|]. apply spec_base32_alphabet.
  - apply base32_encode_null. rewrite encode_length_enc_q by exact H61.
    destruct (size_ok _) eqn:E; [|reflexivity]. apply size_ok_limit in E. contradiction.
Qed.
Lemma base32_roundtrip_prop : forall d t, 0 < blen d -> blen d < 2 ^ 61 ->
  base32_encode (Some d) = Val t -> base32_decode (Some t) = Val d.
Proof. exact base32_roundtrip. Qed.

Lemma base32_decode_prop : forall t,
  base32_decode (Some t) <> UB /\
  (~ Forall (fun c => In c crockford_alphabet) t -> base32_decode (Some t) = Null) /\
  (forall r, base32_decode (Some t) = Val r -> blen r = 5 * blen t / 8) /\
  (Forall (fun c => In c crockford_alphabet) t -> 2 <= blen t -> blen t <= library_limit ->
     exists r, base32_decode (Some t) = Val r).
Proof.
  intros t. rewrite base32_decode_eq. change crockford_alphabet with b32_alphabet.
  assert (HL : forall u, b32_unmap t = Some u -> blen (dec_q u) = 5 * blen t / 8).
  { intros u Hu. apply unmap_spec in Hu. destruct Hu as [_ ->]. unfold blen. rewrite dec_q_length, map_length.
    unfold dlen. lia. }
  repeat split.
  - destruct (buffer_create t); [|discriminate]. destruct (b32_unmap t); [|discriminate].
    destruct (_ =? 0); discriminate.
  - intros H. destruct (buffer_create t); [|reflexivity]. destruct (b32_unmap t) eqn:E; [|reflexivity].
    apply unmap_spec in E. destruct E as [E _]. contradiction.
  - intros r. destruct (buffer_create t); [|discriminate]. destruct (b32_unmap t) as [u|] eqn:E; [|discriminate].
    destruct (_ =? 0); [discriminate|]. intros [= <-]. apply HL. reflexivity.
  - intros Hf H2 Hl. rewrite buffer_create_ok by (apply size_ok_limit; split; lia).
    pose proof (proj2 (unmap_spec t _) (conj Hf eq_refl)) as E. rewrite E.
    rewrite (HL _ E). destruct (5 * blen t / 8 =? 0) eqn:E0; [lia|]. eauto.
Qed.
