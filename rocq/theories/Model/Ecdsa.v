(* Model of src/wickrcrypto/src/digest.c, eckey.c and ecdsa.c.
   Simplification: wickr_digest_t and wickr_ec_curve_t structures are always the library's
   constants (include/wickrcrypto/digest.h:66-68, eckey.h:79), hence enumerations. *)
From Verif.Base Require Import Bytes.
From Verif.Model Require Import Buffer.
Local Open Scope N_scope.
Local Open Scope res_scope.

(* digest.h:33,62-68 *)
Inductive digest := SHA256 | SHA384 | SHA512.
Definition digest_id (d : digest) : N := match d with SHA256 => 1 | SHA384 => 2 | SHA512 => 3 end.
Definition digest_size (d : digest) : N := match d with SHA256 => 32 | SHA384 => 48 | SHA512 => 64 end.
(* digest.c:4-16 *)
Definition digest_find (id : N) : option digest :=
  if id =? 1 then Some SHA256 else if id =? 2 then Some SHA384 else if id =? 3 then Some SHA512 else None.

(* eckey.h:49,62-79 *)
Inductive curve := P521.
Definition curve_id (c : curve) : N := match c with P521 => 0 end.
Definition signature_size (c : curve) : N := match c with P521 => 143 end.
Definition raw_signature_size (c : curve) : N := match c with P521 => 132 end.
Definition max_pub_size (c : curve) : N := match c with P521 => 134 end.
(* eckey.c:70-78 *)
Definition curve_find (id : N) : option curve := if id =? 0 then Some P521 else None.

Record ec_key := { ek_curve : curve; ek_pub : bytes; ek_pri : option bytes }.
(* eckey.c:6-18 *)
Definition ec_key_create (c : curve) (pub pri : option bytes) : option ec_key :=
  match pub with
  | None => None
  | Some p => Some {| ek_curve := c; ek_pub := p; ek_pri := pri |}
  end.
(* eckey.c:20-44 *)
Definition ec_key_copy (k : option ec_key) : option ec_key :=
  match k with
  | None => None
  | Some x =>
      match buffer_copy (Some (ek_pub x)) with
      | None => None
      | Some p =>
          match ek_pri x with
          | None => ec_key_create (ek_curve x) (Some p) None
          | Some q => match buffer_copy (Some q) with
                      | None => None
                      | Some q' => ec_key_create (ek_curve x) (Some p) (Some q')
                      end
          end
      end
  end.
(* eckey.c:46-68; the NULL test of the key comes after its first use, so NULL is undefined *)
Definition ec_key_get_pubdata_fixed_len (k : option ec_key) : res bytes :=
  match k with
  | None => UB
  | Some x =>
      if blen (ek_pub x) =? max_pub_size (ek_curve x) then lift (buffer_copy (Some (ek_pub x)))
      else if max_pub_size (ek_curve x) <? blen (ek_pub x) then Null
      else
        fixed <~ buffer_create_empty_zero (max_pub_size (ek_curve x)) ;;
        memwrite fixed 0 (ek_pub x) (blen (ek_pub x))
  end.

Record ecdsa_result := { es_curve : curve; es_digest : digest; es_sig : bytes }.
(* ecdsa.c:8-20 *)
Definition ecdsa_result_create (c : curve) (d : digest) (sig : option bytes) : option ecdsa_result :=
  match sig with None => None | Some s => Some {| es_curve := c; es_digest := d; es_sig := s |} end.

Definition ECDSA_HEADER_SIZE : N := 2.
(* ecdsa.c:22-49 *)
Definition ecdsa_result_create_from_buffer (buffer : option bytes) : res ecdsa_result :=
  match buffer with
  | None => Null
  | Some b =>
      if blen b <? ECDSA_HEADER_SIZE then Null
      else
        b0 <- rd b 0 ;;
        let c := curve_find (N.shiftr (N.land (b2n b0) 240) 4) in
        let d := digest_find (N.land (b2n b0) 15) in
        match c, d with
        | Some c', Some d' =>
            b1 <- rd b 1 ;;
            let padding_size := b2n b1 in
            if blen b <=? ECDSA_HEADER_SIZE + padding_size then Null
            else
              let start_loc := ECDSA_HEADER_SIZE + padding_size in
              s <~ buffer_copy_section b start_loc (blen b - start_loc) ;;
              lift (ecdsa_result_create c' d' (Some s))
        | _, _ => Null
        end
  end.

(* ecdsa.c:51-77; pad_count is a uint8_t *)
Definition ecdsa_result_serialize (r : option ecdsa_result) : option bytes :=
  match r with
  | None => None
  | Some x =>
      if signature_size (es_curve x) <? wadd64 (blen (es_sig x)) ECDSA_HEADER_SIZE then None
      else
        let meta := n2b (N.lor (N.shiftl (curve_id (es_curve x)) 4) (digest_id (es_digest x))) in
        let pad_count := wsub64 (wsub64 (signature_size (es_curve x)) (blen (es_sig x))) ECDSA_HEADER_SIZE mod 256 in
        let pad := buffer_create_empty_zero pad_count in
        buffer_concat_multi [Some [meta]; Some [n2b pad_count]; pad; Some (es_sig x)]
  end.

(* ecdsa.c:79-88 *)
Definition ecdsa_result_copy (r : option ecdsa_result) : option ecdsa_result :=
  match r with
  | None => None
  | Some x => ecdsa_result_create (es_curve x) (es_digest x) (buffer_copy (Some (es_sig x)))
  end.
