(* Model of src/wickrcrypto/src/cipher.c.
   Simplification: a wickr_cipher_t structure is always one of the two constants the library
   defines (include/wickrcrypto/cipher.h), so it is an enumeration; its fields are functions.
   Functions that only build or copy return an option (None = NULL); parsers return a [res],
   every read going through [rd] or a bounds-checked buffer function. *)
From Verif.Base Require Import Bytes.
From Verif.Model Require Import Buffer.
Local Open Scope N_scope.
Local Open Scope res_scope.

(* cipher.h: CIPHER_AES256_GCM, CIPHER_AES256_CTR *)
Inductive cipher := AES256_GCM | AES256_CTR.
Definition cipher_id (c : cipher) : N := match c with AES256_GCM => 0 | AES256_CTR => 1 end.
Definition key_len (c : cipher) : N := match c with AES256_GCM => 32 | AES256_CTR => 32 end.
Definition iv_len (c : cipher) : N := match c with AES256_GCM => 12 | AES256_CTR => 16 end.
Definition auth_tag_len (c : cipher) : N := match c with AES256_GCM => 16 | AES256_CTR => 0 end.
Definition is_authenticated (c : cipher) : bool := match c with AES256_GCM => true | AES256_CTR => false end.
Definition cipher_eqb (a b : cipher) : bool := cipher_id a =? cipher_id b.

(* cipher.c:5-14 *)
Definition cipher_find (id : N) : option cipher :=
  if id =? 0 then Some AES256_GCM else if id =? 1 then Some AES256_CTR else None.

Record cipher_result := { cr_cipher : cipher; cr_iv : bytes; cr_text : option bytes; cr_tag : option bytes }.
Record cipher_key := { ck_cipher : cipher; ck_data : bytes }.

(* cipher.c:16-42 *)
Definition cipher_result_create (c : cipher) (iv text tag : option bytes) : option cipher_result :=
  match iv with
  | None => None
  | Some v =>
      if negb (blen v =? iv_len c) then None
      else if is_authenticated c && (match tag with None => true | _ => false end) then None
      else if (match tag with Some t => negb (blen t =? auth_tag_len c) | None => false end) then None
      else Some {| cr_cipher := c; cr_iv := v; cr_text := text; cr_tag := tag |}
  end.

(* cipher.c:44-59 *)
Definition cipher_result_copy (r : option cipher_result) : option cipher_result :=
  match r with
  | None => None
  | Some x =>
      let iv_copy := buffer_copy (Some (cr_iv x)) in
      let text_copy := match cr_text x with Some t => buffer_copy (Some t) | None => None end in
      let tag_copy := match cr_tag x with Some t => buffer_copy (Some t) | None => None end in
      cipher_result_create (cr_cipher x) iv_copy text_copy tag_copy
  end.

(* cipher.c:76-91; the iv field of the model is never NULL *)
Definition cipher_result_is_valid (r : cipher_result) : bool :=
  negb (is_authenticated (cr_cipher r) && (match cr_tag r with None => true | _ => false end)).

(* cipher.c:93-109 *)
Definition cipher_result_serialize (r : option cipher_result) : option bytes :=
  match r with
  | None => None
  | Some x =>
      if negb (cipher_result_is_valid x) then None
      else
        let mode := Some [n2b (cipher_id (cr_cipher x))] in
        if negb (is_authenticated (cr_cipher x))
        then buffer_concat_multi [mode; Some (cr_iv x); cr_text x]
        else buffer_concat_multi [mode; Some (cr_iv x); cr_tag x; cr_text x]
  end.

(* cipher.c:111-164 *)
Definition cipher_result_from_buffer (buffer : option bytes) : res cipher_result :=
  match buffer with
  | None => Null
  | Some b =>
      if blen b =? 0 then Null
      else
        b0 <- rd b 0 ;;
        mode <~ cipher_find (b2n b0) ;;
        let required := 1 + iv_len mode + auth_tag_len mode in
        if blen b <? required then Null
        else
          iv <~ buffer_copy_section b 1 (iv_len mode) ;;
          let pos := 1 + iv_len mode in
          tag <- (if is_authenticated mode
                  then t <~ buffer_copy_section b (1 + iv_len mode) (auth_tag_len mode) ;; Val (Some t)
                  else Val None) ;;
          let pos := if is_authenticated mode then pos + auth_tag_len mode else pos in
          text <- (if required <? blen b
                   then t <~ buffer_copy_section b pos (blen b - pos) ;; Val (Some t)
                   else Val None) ;;
          lift (cipher_result_create mode (Some iv) text tag)
  end.

(* cipher.c:166-177 *)
Definition cipher_key_create (c : cipher) (key_data : option bytes) : option cipher_key :=
  match key_data with
  | None => None
  | Some k => if negb (blen k =? key_len c) then None else Some {| ck_cipher := c; ck_data := k |}
  end.

(* cipher.c:179-198 *)
Definition cipher_key_copy (k : option cipher_key) : option cipher_key :=
  match k with
  | None => None
  | Some x =>
      match buffer_copy (Some (ck_data x)) with
      | None => None
      | Some d => cipher_key_create (ck_cipher x) (Some d)
      end
  end.

(* cipher.c:211-224 *)
Definition cipher_key_serialize (k : option cipher_key) : option bytes :=
  match k with
  | None => None
  | Some x => buffer_concat (Some [n2b (cipher_id (ck_cipher x))]) (Some (ck_data x))
  end.

(* cipher.c:226-245 *)
Definition cipher_key_from_buffer (buffer : option bytes) : res cipher_key :=
  match buffer with
  | None => Null
  | Some b =>
      if blen b <=? 1 then Null
      else
        b0 <- rd b 0 ;;
        c <~ cipher_find (b2n b0) ;;
        if wsub64 (blen b) 1 <? key_len c then Null
        else
          k <~ buffer_copy_section b 1 (key_len c) ;;
          lift (cipher_key_create c (Some k))
  end.
