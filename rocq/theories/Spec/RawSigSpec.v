(* Raw signatures: two numbers of 66 bytes each, most significant byte first. *)
From Verif.Base Require Import Bytes.
From Verif.Model Require Import RawSig.

(* the number a byte string denotes, most significant byte first *)
Definition number (b : bytes) : Z := fold_left (fun acc c => (256 * acc + Z.of_N (b2n c))%Z) b 0%Z.
(* [raw] is the raw form of (r, s) on the curve P-521 *)
Definition raw_form (raw : bytes) (r s : Z) : Prop :=
  length raw = 132 /\ number (firstn 66 raw) = r /\ number (skipn 66 raw) = s.
(* numbers that have a raw form *)
Definition fits_raw (r s : Z) : Prop := (0 <= r < 2 ^ 528 /\ 0 <= s < 2 ^ 528)%Z.
(* The DER functions read back what they write, and a signature is at most 1 KiB.  (OpenSSL before
   1.1 treats the number 0 as an error, so there the numbers are positive, as they are in
   every ECDSA signature.) *)
Definition der_ok (D : der) : Prop := forall r s, fits_raw r s ->
  d_d2i D (d_i2d D r s) = Some (r, s) /\ (0 < length (d_i2d D r s) <= 1024)%nat.
Definition handles (v : backend) (r s : Z) : Prop := v = OPENSSL_1_0 -> (0 < r /\ 0 < s)%Z.
