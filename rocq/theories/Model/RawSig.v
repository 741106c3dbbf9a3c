(* Model of the conversions between DER and raw signatures in src/wickrcrypto/src/openssl_suite.c.
   The DER functions of OpenSSL are a record of arbitrary functions; numbers of OpenSSL (BIGNUM)
   are Z.  Simplification: BIGNUM and ECDSA_SIG allocations do not fail. *)
From Verif.Base Require Import Bytes.
From Verif.Model Require Import Buffer Ecdsa.
Local Open Scope N_scope.
Local Open Scope res_scope.

Record der := {
  (* d2i_ECDSA_SIG: the two integers *)
  d_d2i : bytes -> option (Z * Z);
  (* i2d_ECDSA_SIG *)
  d_i2d : Z -> Z -> bytes
}.
(* the three versions of __openssl_ecdsa_bn_to_bin the preprocessor chooses from *)
Inductive backend := AWS_LC | OPENSSL_1_1 | OPENSSL_1_0.

(* BN_num_bytes: of the magnitude *)
Definition num_bytes (z : Z) : N := (N.size (Z.abs_N z) + 7) / 8.
(* big endian *)
Definition be_enc (k : N) (n : N) : bytes := rev (le_enc (N.to_nat k) n).
(* BN_bn2bin writes num_bytes bytes and returns their number *)
Definition bn2bin (out : bytes) (start : N) (z : Z) : res bytes :=
  dst <- memwrite out start (be_enc (num_bytes z) (Z.abs_N z)) (num_bytes z) ;;
  if num_bytes z =? 0 then Null else Val dst.
(* BN_bn2bin_padded, BN_bn2binpad when the number fits; [on_big] what happens when it does not *)
Definition bn2binpad (on_big : res bytes) (out : bytes) (start len : N) (z : Z) : res bytes :=
  if len <? num_bytes z then on_big else memwrite out start (be_enc len (Z.abs_N z)) len.
(* openssl_suite.c:942-971; Null: the result is 0.  BN_bn2binpad returns -1, which is not 0,
   and writes nothing when the number is too long; in the last version the offset is an
   unsigned int and wraps. *)
Definition ecdsa_bn_to_bin (v : backend) (out : bytes) (r s : Z) : res bytes :=
  let half := blen out / 2 in
  match v with
  | AWS_LC =>
      out1 <- bn2binpad Null out 0 half r ;;
      bn2binpad Null out1 half half s
  | OPENSSL_1_1 =>
      out1 <- bn2binpad (Val out) out 0 half r ;;
      bn2binpad (Val out1) out1 half half s
  | OPENSSL_1_0 =>
      out1 <- bn2bin out ((half + two32 - num_bytes r) mod two32) r ;;
      bn2bin out1 ((half * 2 + two32 - num_bytes s) mod two32) s
  end.
(* openssl_suite.c:973-1003 *)
Definition ecdsa_to_raw (D : der) (v : backend) (input : option ecdsa_result) : res bytes :=
  match input with
  | None => Null
  | Some x =>
      match d_d2i D (es_sig x) with
      | None => Null
      | Some (r, s) =>
          out <~ buffer_create_empty_zero (raw_signature_size (es_curve x)) ;;
          ecdsa_bn_to_bin v out r s
      end
  end.
(* BN_bin2bn *)
Definition bin2bn (b : bytes) : Z := Z.of_N (le_dec (rev b)).
(* openssl_suite.c:1005-1085 *)
Definition ecdsa_from_raw (D : der) (c : curve) (d : digest) (input : option bytes) : res ecdsa_result :=
  match input with
  | None => Null
  | Some b =>
      if negb (blen b =? raw_signature_size c) then Null
      else
        r <- memread b 0 (blen b / 2) ;;
        s <- memread b (blen b / 2) (blen b / 2) ;;
        let e := d_i2d D (bin2bn r) (bin2bn s) in
        sig_data <~ buffer_create_empty_zero (blen e) ;;
        sig_data' <- memwrite sig_data 0 e (blen e) ;;
        lift (ecdsa_result_create c d (Some sig_data'))
  end.
