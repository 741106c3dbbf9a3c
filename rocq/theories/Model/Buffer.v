(* Model of src/wickrcrypto/src/buffer.c.
   A wickr_buffer_t * is an [option bytes]; a buffer's allocation is exactly its
   [length] bytes.  size_t values are N below 2^64 (hypotheses of the theorems).
   Simplification: wickr_alloc / wickr_alloc_zero (memory.c:11-25) never fail for
   a size the library accepts. *)
From Verif.Base Require Import Bytes.
Local Open Scope N_scope.
Local Open Scope res_scope.

(* include/wickrcrypto/buffer.h: MAX_BUFFER_SIZE *)
Definition MAX_BUFFER_SIZE : N := 2147483631.

(* memcpy(dst, src + start, len): reading outside the object is undefined *)
Definition memread (src : bytes) (start len : N) : res bytes :=
  if start + len <=? blen src
  then Val (slice src (N.to_nat start) (N.to_nat len)) else UB.

(* memcpy(dst + start, src, len): reading outside src or writing outside dst is undefined *)
Definition memwrite (dst : bytes) (start : N) (src : bytes) (len : N) : res bytes :=
  s <- memread src 0 len ;;
  if start + len <=? blen dst
  then Val (firstn (N.to_nat start) dst ++ s ++ skipn (N.to_nat (start + len)) dst) else UB.

(* buffer.c:6-25 __validate_buffer_range *)
Definition validate_buffer_range (buffer : option bytes) (start len : N) : bool :=
  match buffer with
  | None => false
  | Some b =>
      if (MAX_BUFFER_SIZE <=? start) || (MAX_BUFFER_SIZE <=? len) || (len =? 0) then false
      else if wsub64 MAX_BUFFER_SIZE start <? len then false
      else if blen b <? wadd64 start len then false
      else true
  end.

(* buffer.c:27-49 __wickr_buffer_create_empty; [junk] is the content malloc leaves behind *)
Definition buffer_create_empty (junk : nat -> byte) (len : N) : option bytes :=
  if (MAX_BUFFER_SIZE <? len) || (len =? 0) then None
  else Some (map junk (seq 0 (N.to_nat len))).

(* buffer.c:56-59 *)
Definition buffer_create_empty_zero (len : N) : option bytes :=
  buffer_create_empty (fun _ => x00) len.

(* buffer.c:61-76; [src] is the object the pointer points to (None = NULL) *)
Definition buffer_create_at (junk : nat -> byte) (src : option bytes) (start len : N) : res bytes :=
  match src with
  | None => Null
  | Some s =>
      new <~ buffer_create_empty junk len ;;
      d <- memread s start len ;;
      memwrite new 0 d len
  end.
Definition buffer_create_raw (junk : nat -> byte) (src : option bytes) (len : N) : res bytes :=
  buffer_create_at junk src 0 len.

(* buffer.c:78-84 *)
Definition buffer_copy_raw (junk : nat -> byte) (source : option bytes) : res bytes :=
  match source with
  | None => Null
  | Some s => buffer_create_raw junk (Some s) (blen s)
  end.

(* buffer.c:86-97; source->bytes + start is modelled by the offset of the read *)
Definition buffer_copy_section_raw (junk : nat -> byte) (source : option bytes) (start len : N) : res bytes :=
  match source with
  | None => Null
  | Some s =>
      if negb (validate_buffer_range source start len) then Null
      else buffer_create_at junk (Some s) start len
  end.

(* buffer.c:99-123 *)
Definition buffer_concat_raw (junk : nat -> byte) (b1 b2 : option bytes) : res bytes :=
  match b1, b2 with
  | Some x, Some y =>
      if (MAX_BUFFER_SIZE <? blen x) || (MAX_BUFFER_SIZE <? blen y) then Null
      else if wsub64 MAX_BUFFER_SIZE (blen x) <? blen y then Null
      else
        new <~ buffer_create_empty junk (wadd64 (blen x) (blen y)) ;;
        new1 <- memwrite new 0 x (blen x) ;;
        memwrite new1 (blen x) y (blen y)
  | _, _ => Null
  end.

(* buffer.c:131-146, first loop of concat_multi: the byte count, None = early return NULL *)
Fixpoint concat_count (bufs : list (option bytes)) (count : N) : option N :=
  match bufs with
  | [] => Some count
  | None :: rest => concat_count rest count
  | Some b :: rest =>
      if blen b =? 0 then concat_count rest count
      else if (MAX_BUFFER_SIZE <? blen b) || (wsub64 MAX_BUFFER_SIZE count <? blen b) then None
      else concat_count rest (wadd64 count (blen b))
  end.
(* buffer.c:156-167, second loop *)
Fixpoint concat_fill (bufs : list (option bytes)) (dst : bytes) (count : N) : res bytes :=
  match bufs with
  | [] => Val dst
  | None :: rest => concat_fill rest dst count
  | Some b :: rest =>
      if blen b =? 0 then concat_fill rest dst count
      else
        dst' <- memwrite dst count b (blen b) ;;
        concat_fill rest dst' (wadd64 count (blen b))
  end.
(* buffer.c:125-170; the list is the array of n_buffers pointers (n_buffers is a uint8_t) *)
Definition buffer_concat_multi_raw (junk : nat -> byte) (bufs : list (option bytes)) : res bytes :=
  match bufs with
  | [] => Null
  | _ =>
      count <~ concat_count bufs 0 ;;
      merged <~ buffer_create_empty junk count ;;
      concat_fill bufs merged 0
  end.

(* buffer.c:172-185; the new content of the buffer (Null = returned false, buffer unchanged) *)
Definition buffer_modify_section_raw (buffer : option bytes) (src : option bytes) (start len : N) : res bytes :=
  match buffer, src with
  | Some b, Some s =>
      if negb (validate_buffer_range buffer start len) then Null
      else memwrite b start s len
  | _, _ => Null
  end.

(* buffer.c:187-210 with the default comparison function (memcmp) *)
Definition buffer_is_equal (b1 b2 : option bytes) : bool :=
  match b1, b2 with
  | Some x, Some y => (blen x =? blen y) && beqb x y
  | _, _ => false
  end.

(* ------------------------------------------------------------------------
   The same functions without the memory outcome, used by the rest of the
   model.  Proofs/BufferFacts.v proves each equal to its _raw version above
   (for every junk), so nothing is lost by using them. *)
Definition size_ok (n : N) : bool := (0 <? n) && (n <=? MAX_BUFFER_SIZE).
Definition buffer_create (s : bytes) : option bytes :=
  if size_ok (blen s) then Some s else None.
Definition buffer_copy (s : option bytes) : option bytes :=
  match s with Some b => buffer_create b | None => None end.
Definition section_ok (b : bytes) (start len : N) : bool :=
  (0 <? len) && (len <? MAX_BUFFER_SIZE) && (start + len <=? MAX_BUFFER_SIZE) && (start + len <=? blen b).
Definition buffer_copy_section (b : bytes) (start len : N) : option bytes :=
  if section_ok b start len
  then Some (slice b (N.to_nat start) (N.to_nat len)) else None.
Definition obytes (o : option bytes) : bytes := match o with Some b => b | None => [] end.
Definition buffer_concat (a b : option bytes) : option bytes :=
  match a, b with
  | Some x, Some y => buffer_create (x ++ y)
  | _, _ => None
  end.
Definition buffer_concat_multi (bufs : list (option bytes)) : option bytes :=
  buffer_create (concat (map obytes bufs)).
