(* C12, C13, C16, C17, C18: cipher results, cipher keys, signatures, KDF parameters on the wire *)
From Verif.Base Require Import Bytes.
From Verif.Model Require Import Buffer Cipher Ecdsa Kdf.
From Verif.Spec Require Import BufferSpec CodecSpec.
From Verif.Proofs Require Import BytesFacts CodecFacts.
Local Open Scope N_scope.

(* C12: every well-formed result of a size the library can hold *)
Theorem C12_result_roundtrip : forall r, good_result r -> within_limit (blen (result_wire r)) ->
  cipher_result_serialize (Some r) = Some (result_wire r) /\
  cipher_result_from_buffer (Some (result_wire r)) = Val r.
Proof. exact result_roundtrip. Qed.
Print Assumptions C12_result_roundtrip.
(* ... a larger one is refused, not truncated *)
Theorem C12_result_too_big : forall r, library_limit < blen (result_wire r) -> good_result r ->
  cipher_result_serialize (Some r) = None.
Proof. exact result_too_big. Qed.
Print Assumptions C12_result_too_big.
(* C12: every byte string, or NULL, is rejected or parses to a well-formed result that
   serializes to it *)
Theorem C12_result_accept : forall b,
  cipher_result_from_buffer b <> UB /\
  forall r, cipher_result_from_buffer b = Val r ->
    good_result r /\ b = Some (result_wire r) /\ cipher_result_serialize (Some r) = b.
Proof. exact result_accept. Qed.
Print Assumptions C12_result_accept.

Definition sample_result : cipher_result :=
  {| cr_cipher := AES256_GCM; cr_iv := repeat x07 12; cr_text := Some [x41; x42]; cr_tag := Some (repeat x09 16) |}.
Example C12_case : good_result sample_result /\ within_limit (blen (result_wire sample_result)) /\
  result_wire sample_result = (x00 :: repeat x07 12 ++ repeat x09 16 ++ [x41; x42])%list /\
  cipher_result_from_buffer (Some (x01 :: repeat x07 16 ++ [x33])%list) =
    Val {| cr_cipher := AES256_CTR; cr_iv := repeat x07 16; cr_text := Some [x33]; cr_tag := None |} /\
  cipher_result_from_buffer (Some (x00 :: repeat x07 27)%list) = Null.
Proof.
  split; [split; [split; [reflexivity|eexists; split; reflexivity]|discriminate]|].
  split; [split; vm_compute; congruence|]. split; [reflexivity|]. split; vm_compute; reflexivity.
Qed.

(* C13: every key, also when more bytes follow it *)
Theorem C13_key_roundtrip : forall k rest, good_key k -> blen rest <= library_limit ->
  cipher_key_serialize (Some k) = Some (key_wire k) /\
  cipher_key_from_buffer (Some (key_wire k ++ rest)%list) = Val k.
Proof. exact (fun k rest G L => conj (key_serialize_ok k G) (key_parse_ok k rest G L)). Qed.
Print Assumptions C13_key_roundtrip.
(* C13: what is accepted starts with the wire form of the key returned; hence an unknown cipher
   byte or a short key is rejected *)
Theorem C13_key_accept : forall b, blen b < two64 ->
  cipher_key_from_buffer (Some b) <> UB /\
  forall k, cipher_key_from_buffer (Some b) = Val k -> good_key k /\ exists rest, b = (key_wire k ++ rest)%list.
Proof. exact key_accept. Qed.
Print Assumptions C13_key_accept.
Example C13_case : good_key {| ck_cipher := AES256_CTR; ck_data := repeat x05 32 |} /\
  cipher_key_from_buffer (Some (x01 :: repeat x05 32)%list) = Val {| ck_cipher := AES256_CTR; ck_data := repeat x05 32 |} /\
  cipher_key_from_buffer (Some (x02 :: repeat x05 32)%list) = Null /\
  cipher_key_from_buffer (Some (x01 :: repeat x05 31)%list) = Null.
Proof. repeat split; vm_compute; reflexivity. Qed.

(* C16 *)
Theorem C16_signature_roundtrip : forall s, good_sig s ->
  ecdsa_result_serialize (Some s) = Some (sig_wire s) /\ length (sig_wire s) = 143%nat /\
  ecdsa_result_create_from_buffer (Some (sig_wire s)) = Val s.
Proof. exact sig_roundtrip. Qed.
Print Assumptions C16_signature_roundtrip.
Theorem C16_signature_size : forall s b, blen (es_sig s) < 2 ^ 63 ->
  ecdsa_result_serialize (Some s) = Some b -> length b = 143%nat.
Proof. exact sig_serialize_143. Qed.
Print Assumptions C16_signature_size.
Theorem C16_long_signature_refused : forall s, 141 < blen (es_sig s) -> blen (es_sig s) < 2 ^ 63 ->
  ecdsa_result_serialize (Some s) = None.
Proof. exact sig_serialize_long. Qed.
Print Assumptions C16_long_signature_refused.
Theorem C16_parser_safe : forall b, ecdsa_result_create_from_buffer b <> UB.
Proof. exact sig_parse_safe. Qed.
Print Assumptions C16_parser_safe.
Example C16_case : good_sig {| es_curve := P521; es_digest := SHA512; es_sig := repeat x30 139 |} /\
  sig_wire {| es_curve := P521; es_digest := SHA512; es_sig := repeat x30 139 |} = (x03 :: x02 :: x00 :: x00 :: repeat x30 139)%list.
Proof. split; [unfold good_sig; cbn; split; repeat constructor|reflexivity]. Qed.

(* C17 is false: the padding bytes are not checked *)
Theorem C17_padding_refuted : exists b1 b2 s, length b1 = 143%nat /\ length b2 = 143%nat /\ b1 <> b2 /\
  ecdsa_result_create_from_buffer (Some b1) = Val s /\ ecdsa_result_create_from_buffer (Some b2) = Val s.
Proof.
  exists (x03 :: x01 :: x00 :: repeat x30 140)%list, (x03 :: x01 :: x01 :: repeat x30 140)%list,
    {| es_curve := P521; es_digest := SHA512; es_sig := repeat x30 140 |}.
  split; [reflexivity|]. split; [reflexivity|]. split; [discriminate|]. split; vm_compute; reflexivity.
Qed.
Print Assumptions C17_padding_refuted.
(* C17, the true part: two 143-byte strings that parse as the same signature can differ only in
   the padding bytes.  Missing: equality of the padding. *)
Theorem C17_signature_form_partial : forall b1 b2 s, length b1 = 143%nat -> length b2 = 143%nat ->
  ecdsa_result_create_from_buffer (Some b1) = Val s -> ecdsa_result_create_from_buffer (Some b2) = Val s ->
  nth_error b1 0 = nth_error b2 0 /\ nth_error b1 1 = nth_error b2 1 /\
  skipn (143 - length (es_sig s)) b1 = skipn (143 - length (es_sig s)) b2 /\
  ecdsa_result_serialize (Some s) = Some (sig_wire s).
Proof. exact sig_canonical. Qed.
Print Assumptions C17_signature_form_partial.

(* C18: the five password KDFs; [rest] is whatever follows the parameters *)
Theorem C18_kdf_roundtrip : forall m rest, good_kdf_meta m -> blen rest <= library_limit ->
  kdf_meta_serialize (Some m) = Some (kdf_wire m) /\
  kdf_meta_create_with_buffer (Some (kdf_wire m ++ rest)%list) = Val m /\
  kdf_meta_size_with_buffer (Some (kdf_wire m ++ rest)%list) = Val (blen (kdf_wire m)).
Proof. exact kdf_roundtrip. Qed.
Print Assumptions C18_kdf_roundtrip.
Theorem C18_kdf_accept : forall b,
  kdf_meta_create_with_buffer (Some b) <> UB /\
  kdf_meta_size_with_buffer (Some b) <> UB /\ kdf_meta_size_with_buffer (Some b) <> Null /\
  forall m, kdf_meta_create_with_buffer (Some b) = Val m -> good_kdf_meta m /\ exists rest, b = (kdf_wire m ++ rest)%list.
Proof. exact kdf_accept. Qed.
Print Assumptions C18_kdf_accept.
(* C18: whatever the constructor makes for such a KDF (without info) is covered *)
Theorem C18_kdf_created : forall a s i m,
  In a [KDF_SCRYPT_2_17; KDF_SCRYPT_2_18; KDF_SCRYPT_2_19; KDF_SCRYPT_2_20; KDF_BCRYPT_15] ->
  kdf_meta_create a s i = Some m -> i = None -> good_kdf_meta m.
Proof. exact kdf_create_good. Qed.
Print Assumptions C18_kdf_created.
Example C18_case : kdf_meta_create KDF_SCRYPT_2_17 (Some (repeat x0a 16)) None =
    Some {| km_algo := KDF_SCRYPT_2_17; km_salt := Some (repeat x0a 16); km_info := None |} /\
  kdf_meta_create_with_buffer (Some (x01 :: repeat x0a 20)%list) =
    Val {| km_algo := KDF_SCRYPT_2_17; km_salt := Some (repeat x0a 16); km_info := None |} /\
  kdf_meta_size_with_buffer (Some (x06 :: repeat x0a 20)%list) = Val 0 /\
  kdf_meta_create_with_buffer (Some (x01 :: repeat x0a 15)%list) = Null.
Proof. repeat split; vm_compute; reflexivity. Qed.
