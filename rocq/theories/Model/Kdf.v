(* Model of the data part of src/wickrcrypto/src/kdf.c (the hashing part is in Model/Engine.v). *)
From Verif.Base Require Import Bytes.
From Verif.Model Require Import Buffer Ecdsa.
Local Open Scope N_scope.
Local Open Scope res_scope.

(* include/wickrcrypto/kdf.h:47,71-77 *)
Inductive kdf_kind := KDF_BCRYPT | KDF_SCRYPT | KDF_HMAC_SHA2.
Definition kdf_kind_eqb (a b : kdf_kind) : bool :=
  match a, b with
  | KDF_BCRYPT, KDF_BCRYPT | KDF_SCRYPT, KDF_SCRYPT | KDF_HMAC_SHA2, KDF_HMAC_SHA2 => true
  | _, _ => false
  end.
Record kdf_algo := { ka_kind : kdf_kind; ka_id : N; ka_salt_size : N; ka_output_size : N; ka_cost : N }.
(* kdf.h:49,87-122 *)
Definition KDF_SCRYPT_2_17 := {| ka_kind := KDF_SCRYPT; ka_id := 1; ka_salt_size := 16; ka_output_size := 32; ka_cost := 1116161 |}.
Definition KDF_SCRYPT_2_18 := {| ka_kind := KDF_SCRYPT; ka_id := 2; ka_salt_size := 16; ka_output_size := 32; ka_cost := 1181697 |}.
Definition KDF_SCRYPT_2_19 := {| ka_kind := KDF_SCRYPT; ka_id := 3; ka_salt_size := 16; ka_output_size := 32; ka_cost := 1247233 |}.
Definition KDF_SCRYPT_2_20 := {| ka_kind := KDF_SCRYPT; ka_id := 4; ka_salt_size := 16; ka_output_size := 32; ka_cost := 1312769 |}.
Definition KDF_BCRYPT_15 := {| ka_kind := KDF_BCRYPT; ka_id := 5; ka_salt_size := 22; ka_output_size := 64; ka_cost := 15 |}.
Definition KDF_HKDF_SHA256 := {| ka_kind := KDF_HMAC_SHA2; ka_id := 6; ka_salt_size := 32; ka_output_size := 32; ka_cost := 0 |}.
Definition KDF_HKDF_SHA384 := {| ka_kind := KDF_HMAC_SHA2; ka_id := 7; ka_salt_size := 48; ka_output_size := 48; ka_cost := 0 |}.
Definition KDF_HKDF_SHA512 := {| ka_kind := KDF_HMAC_SHA2; ka_id := 8; ka_salt_size := 64; ka_output_size := 64; ka_cost := 0 |}.
Definition KDF_HKDF_SHA512_EXPAND := {| ka_kind := KDF_HMAC_SHA2; ka_id := 9; ka_salt_size := 64; ka_output_size := 0; ka_cost := 0 |}.

(* kdf.c:15-30 *)
Definition find_kdf_algo (id : N) : option kdf_algo :=
  if id =? 5 then Some KDF_BCRYPT_15
  else if id =? 1 then Some KDF_SCRYPT_2_17
  else if id =? 2 then Some KDF_SCRYPT_2_18
  else if id =? 3 then Some KDF_SCRYPT_2_19
  else if id =? 4 then Some KDF_SCRYPT_2_20
  else None.

Record kdf_meta := { km_algo : kdf_algo; km_salt : option bytes; km_info : option bytes }.
(* kdf.c:32-57 *)
Definition kdf_meta_create (a : kdf_algo) (salt info : option bytes) : option kdf_meta :=
  let m := Some {| km_algo := a; km_salt := salt; km_info := info |} in
  match ka_kind a with
  | KDF_HMAC_SHA2 => match salt, info with None, None => None | _, _ => m end
  | _ => match salt with
         | None => None
         | Some s => if negb (blen s =? ka_salt_size a) then None else m
         end
  end.
(* kdf.c:59-74; output_size is stored in a uint8_t *)
Definition kdf_meta_create_hkdf_expand (d : option digest) (info : option bytes) (output_size : N) : option kdf_meta :=
  match d, info with
  | Some d', Some i =>
      if negb (digest_id d' =? 3) then None
      else
        let algo := {| ka_kind := KDF_HMAC_SHA2; ka_id := 9; ka_salt_size := 64;
                       ka_output_size := output_size mod 256; ka_cost := 0 |} in
        kdf_meta_create algo None (Some i)
  | _, _ => None
  end.
(* kdf.c:76-93; the result is a uint8_t, 0 = failure *)
Definition kdf_meta_size_with_buffer (buffer : option bytes) : res N :=
  match buffer with
  | None => Val 0
  | Some b =>
      if blen b <=? 1 then Val 0
      else
        b0 <- rd b 0 ;;
        match find_kdf_algo (b2n b0) with
        | None => Val 0
        | Some a => Val ((1 + ka_salt_size a) mod 256)
        end
  end.
(* kdf.c:95-120 *)
Definition kdf_meta_create_with_buffer (buffer : option bytes) : res kdf_meta :=
  meta_size <- kdf_meta_size_with_buffer buffer ;;
  if meta_size =? 0 then Null
  else match buffer with
       | None => UB
       | Some b =>
           if blen b <? meta_size then Null
           else
             b0 <- rd b 0 ;;
             a <~ find_kdf_algo (b2n b0) ;;
             salt <~ buffer_copy_section b 1 (ka_salt_size a) ;;
             lift (kdf_meta_create a (Some salt) None)
       end.
(* kdf.c:122-140; the id is cast to uint8_t *)
Definition kdf_meta_serialize (m : option kdf_meta) : option bytes :=
  match m with
  | None => None
  | Some x =>
      if kdf_kind_eqb (ka_kind (km_algo x)) KDF_HMAC_SHA2 && (match km_salt x with None => true | _ => false end) then None
      else buffer_concat (Some [n2b (ka_id (km_algo x))]) (km_salt x)
  end.
(* a copy of an optional buffer that must succeed when there is a buffer *)
Definition copy_opt (b : option bytes) : option (option bytes) :=
  match b with
  | None => Some None
  | Some x => match buffer_copy (Some x) with None => None | Some y => Some (Some y) end
  end.
(* kdf.c:142-162 *)
Definition kdf_meta_copy (m : option kdf_meta) : option kdf_meta :=
  match m with
  | None => None
  | Some x =>
      match copy_opt (km_salt x) with
      | None => None
      | Some s => match copy_opt (km_info x) with
                  | None => None
                  | Some i => kdf_meta_create (km_algo x) s i
                  end
      end
  end.

Record kdf_result := { kr_meta : kdf_meta; kr_hash : bytes }.
(* kdf.c:176-192 *)
Definition kdf_result_create (m : option kdf_meta) (h : option bytes) : option kdf_result :=
  match m, h with
  | Some x, Some y => Some {| kr_meta := x; kr_hash := y |}
  | _, _ => None
  end.
(* kdf.c:194-214 *)
Definition kdf_result_copy (r : option kdf_result) : option kdf_result :=
  match r with
  | None => None
  | Some x =>
      match kdf_meta_copy (Some (kr_meta x)), buffer_copy (Some (kr_hash x)) with
      | Some m, Some h => kdf_result_create (Some m) (Some h)
      | _, _ => None
      end
  end.
(* kdf.c:471-483 *)
Definition hkdf_algo_for_digest (d : digest) : kdf_algo :=
  match d with SHA256 => KDF_HKDF_SHA256 | SHA384 => KDF_HKDF_SHA384 | SHA512 => KDF_HKDF_SHA512 end.
