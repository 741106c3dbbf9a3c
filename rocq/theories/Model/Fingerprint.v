(* Model of src/wickrcrypto/src/fingerprint.c *)
From Verif.Base Require Import Bytes.
From Verif.Model Require Import Buffer CString Hex Base32 Cipher Ecdsa Prims Engine.
Local Open Scope N_scope.
Local Open Scope res_scope.

(* fingerprint.h:52-76; there is one type *)
Inductive fingerprint_type := FP_SHA512.
Record fingerprint := { fp_type : fingerprint_type; fp_data : bytes }.
(* fingerprint.h:43-46 *)
Inductive fingerprint_output := FP_SHORT | FP_LONG.

(* fingerprint.c:122-138 *)
Definition fingerprint_create (t : fingerprint_type) (data : option bytes) : option fingerprint :=
  match data with None => None | Some d => Some {| fp_type := t; fp_data := d |} end.
(* fingerprint.c:140-159 *)
Definition fingerprint_copy (f : option fingerprint) : option fingerprint :=
  match f with
  | None => None
  | Some x => match buffer_copy (Some (fp_data x)) with
              | None => None
              | Some d => fingerprint_create (fp_type x) (Some d)
              end
  end.

Section Fingerprint.
Context (P : prims).

(* fingerprint.c:6-27 *)
Definition fingerprint_sha512_create (input : option bytes) : option fingerprint :=
  match input with
  | None => None
  | Some i => fingerprint_create FP_SHA512 (sha2 P (Some i) None SHA512)
  end.
(* fingerprint.c:29-43 *)
Definition fingerprint_sha512_encode (pub_key_data identifier : option bytes) : option fingerprint :=
  match pub_key_data, identifier with
  | Some _, Some _ => fingerprint_sha512_create (buffer_concat identifier pub_key_data)
  | _, _ => None
  end.
(* fingerprint.c:57-73: the loop; the lengths are equal *)
Fixpoint fingerprint_order (a b whole1 whole2 : bytes) : option bytes :=
  match a, b with
  | x :: a', y :: b' =>
      if Byte.eqb x y then fingerprint_order a' b' whole1 whole2
      else if b2n y <? b2n x then buffer_concat (Some whole1) (Some whole2)
      else buffer_concat (Some whole2) (Some whole1)
  | _, _ => None
  end.
(* fingerprint.c:45-86 *)
Definition fingerprint_sha512_combine (f1 f2 : option fingerprint) : option fingerprint :=
  match f1, f2 with
  | Some a, Some b =>
      if negb (blen (fp_data a) =? blen (fp_data b)) then None
      else fingerprint_sha512_create (fingerprint_order (fp_data a) (fp_data b) (fp_data a) (fp_data b))
  | _, _ => None
  end.
(* fingerprint.c:88-107 *)
Definition fingerprint_gen (key : option ec_key) (identifier : option bytes) (t : fingerprint_type) : res fingerprint :=
  match key, identifier with
  | Some _, Some _ =>
      fixed_pub_data <- ec_key_get_pubdata_fixed_len key ;;
      lift (fingerprint_sha512_encode (Some fixed_pub_data) identifier)
  | _, _ => Null
  end.
(* fingerprint.c:109-120 *)
Definition fingerprint_gen_bilateral (local remote : option fingerprint) (t : fingerprint_type) : option fingerprint :=
  match t with FP_SHA512 => fingerprint_sha512_combine local remote end.

End Fingerprint.

(* fingerprint.c:174-194 with base32_encode; the encoded buffer is used without a NULL test
   and the byte at half its length is overwritten *)
Definition fingerprint_get_b32 (f : option fingerprint) (mode : fingerprint_output) : res cbuf :=
  match f with
  | None => Null
  | Some x =>
      e <- (match base32_encode (Some (fp_data x)) with
            | Val t => Val (Some t) | Null => Val None | UB => UB end) ;;
      match mode, e with
      | FP_LONG, None => Null
      | FP_LONG, Some t => Val (cbuf_of t)
      | FP_SHORT, None => UB
      | FP_SHORT, Some t =>
          let n := blen t / 2 in
          m <- put t (N.to_nat n) NUL ;;
          Val {| cb_mem := m; cb_len := n |}
      end
  end.
(* fingerprint.c:174-194 with getHexStringFromData *)
Definition fingerprint_get_hex (junk : nat -> byte) (f : option fingerprint) (mode : fingerprint_output) : res cbuf :=
  match f with
  | None => Null
  | Some x =>
      e <- (match hex_encode junk (Some (fp_data x)) with
            | Val t => Val (Some t) | Null => Val None | UB => UB end) ;;
      match mode, e with
      | FP_LONG, None => Null
      | FP_LONG, Some t => Val t
      | FP_SHORT, None => UB
      | FP_SHORT, Some t =>
          let n := cb_len t / 2 in
          m <- put (cb_mem t) (N.to_nat n) NUL ;;
          Val {| cb_mem := m; cb_len := n |}
      end
  end.
