(* Model of the hexadecimal functions of src/wickrcrypto/src/util.c *)
From Coq Require Import Strings.String.
From Verif.Base Require Import Bytes.
From Verif.Model Require Import Buffer CString.
Local Open Scope N_scope.
Local Open Scope res_scope.

(* util.c:177-186 byteMap, nibbleToChar *)
Definition byteMap : bytes := list_byte_of_string "0123456789abcdef".
Definition nibbleToChar (n : N) : byte := nth (N.to_nat n) byteMap (n2b 42).

(* util.c:202-205 *)
Fixpoint hex_chars (d : bytes) : bytes :=
  match d with
  | [] => []
  | a :: d' => nibbleToChar (N.shiftr (b2n a) 4) :: nibbleToChar (N.land (b2n a) 15) :: hex_chars d'
  end.

(* util.c:191-212 getHexStringFromData *)
Definition hex_encode (junk : nat -> byte) (objData : option bytes) : res cbuf :=
  match objData with
  | None => Null
  | Some d =>
      alloc <~ buffer_create_empty junk (wadd64 ((blen d * 2) mod two64) 1) ;;
      let written := (hex_chars d ++ [NUL])%list in
      mem <- memwrite alloc 0 written (blen written) ;;
      Val {| cb_mem := mem; cb_len := wsub64 (blen alloc) 1 |}
  end.

(* value of a hexadecimal digit *)
Definition hexval (c : byte) : option N :=
  let n := b2n c in
  if (48 <=? n) && (n <=? 57) then Some (n - 48)
  else if (97 <=? n) && (n <=? 102) then Some (n - 87)
  else if (65 <=? n) && (n <=? 70) then Some (n - 55)
  else None.
Definition is_space (c : byte) : bool :=
  let n := b2n c in ((9 <=? n) && (n <=? 13)) || (n =? 32).

(* the digits strtol consumes, accumulated *)
Fixpoint strtol_digits (s : bytes) (acc : Z) : Z :=
  match s with
  | [] => acc
  | c :: s' => match hexval c with
               | Some v => strtol_digits s' (acc * 16 + Z.of_N v)%Z
               | None => acc
               end
  end.
(* optional "0x" / "0X", only when a digit follows it *)
Definition strtol_prefix (s : bytes) : bytes :=
  match s with
  | z :: x :: d :: s' =>
      if (b2n z =? 48) && ((b2n x =? 120) || (b2n x =? 88)) &&
         (match hexval d with Some _ => true | None => false end)
      then d :: s' else s
  | _ => s
  end.
Fixpoint skip_space (s : bytes) : bytes :=
  match s with
  | c :: s' => if is_space c then skip_space s' else s
  | [] => []
  end.
(* C library strtol(s, NULL, 16) on a string of at most two characters (C locale) *)
Definition strtol16 (s : bytes) : Z :=
  match skip_space s with
  | c :: s' =>
      if b2n c =? 45 then Z.opp (strtol_digits (strtol_prefix s') 0)
      else if b2n c =? 43 then strtol_digits (strtol_prefix s') 0
      else strtol_digits (strtol_prefix (c :: s')) 0
  | [] => 0%Z
  end.
(* util.c:215-221 strToChar: the long is converted to char and then to unsigned char *)
Definition strToChar (a b : byte) : byte := n2b (Z.to_N (Z.modulo (strtol16 [a; b]) 256)).

(* util.c:240-244: the bytes stored through index *)
Fixpoint hex_loop (p : bytes) : res bytes :=
  match p with
  | [] => UB
  | a :: p1 =>
      if Byte.eqb a NUL then Val []
      else match p1 with
           | [] => UB
           | b :: p2 => if Byte.eqb b NUL then Val []
                        else r <- hex_loop p2 ;; Val (strToChar a b :: r)
           end
  end.

(* util.c:223-250 getDataFromHexString *)
Definition hex_decode (junk : nat -> byte) (hexString : option cbuf) : res bytes :=
  match hexString with
  | None => Null
  | Some s =>
      n <- strlen (cb_mem s) ;;
      alloc <~ buffer_create_empty junk (n / 2) ;;
      w <- hex_loop (cb_mem s) ;;
      memwrite alloc 0 w (blen w)
  end.
