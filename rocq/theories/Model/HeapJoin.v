(* Joining and cutting buffers (buffer.c) on the heap of Model/Heap.v.  The functions follow
   Model/Buffer.v, with its 64-bit arithmetic, and add what is allocated.  The contents of the
   arguments are read before the new buffer is allocated, where the code reads their lengths
   then and their contents after: nothing is written to them in between. *)
From Verif.Base Require Import Bytes.
From Verif.Model Require Import Buffer Heap HeapObjects HeapWrite HeapEngine.
Local Open Scope N_scope.
Local Open Scope h_scope.

(* buffer.c:86-97, with wickr_buffer_create (buffer.c:61-76) in place *)
Definition h_buffer_section (source : option hbuf) (start len : N) : H (option hbuf) :=
  match source with
  | None => hret None
  | Some b =>
      d <-! h_bytes b ;;
      if negb (validate_buffer_range (Some d) start len) then hret None
      else
        new <-? h_buffer_create_empty len else hret tt ;;
        match memread d start len with
        | Val c => match memwrite (b_bytes new) 0 c len with Val m => r <-! h_fill new m ;; hret (Some r) | _ => hub end
        | _ => hub
        end
  end.

(* buffer.c:99-123 *)
Definition h_buffer_concat (buffer1 buffer2 : option hbuf) : H (option hbuf) :=
  match buffer1, buffer2 with
  | Some b1, Some b2 =>
      x <-! h_bytes b1 ;;
      y <-! h_bytes b2 ;;
      if (MAX_BUFFER_SIZE <? blen x) || (MAX_BUFFER_SIZE <? blen y) then hret None
      else if wsub64 MAX_BUFFER_SIZE (blen x) <? blen y then hret None
      else
        new <-? h_buffer_create_empty (wadd64 (blen x) (blen y)) else hret tt ;;
        match memwrite (b_bytes new) 0 x (blen x) with
        | Val m =>
            half <-! h_fill new m ;;
            match memwrite m (blen x) y (blen y) with Val m' => r <-! h_fill half m' ;; hret (Some r) | _ => hub end
        | _ => hub
        end
  | _, _ => hret None
  end.

(* what the two loops of buffer.c:131-167 read of the array of pointers *)
Fixpoint h_bytes_each (buffers : list (option hbuf)) : H (list (option bytes)) :=
  match buffers with
  | [] => hret []
  | b :: rest => c <-! h_bytes_opt b ;; l <-! h_bytes_each rest ;; hret (c :: l)
  end.
(* buffer.c:125-170; the list is the array of n_buffers pointers, which belongs to the caller;
   that n_buffers is at most 255 is not used.  What the loop copies is stored at once. *)
Definition h_buffer_concat_multi (buffers : list (option hbuf)) : H (option hbuf) :=
  match buffers with
  | [] => hret None
  | _ =>
      l <-! h_bytes_each buffers ;;
      match concat_count l 0 with
      | None => hret None
      | Some count =>
          merged <-? h_buffer_create_empty count else hret tt ;;
          match concat_fill l (b_bytes merged) 0 with Val m => r <-! h_fill merged m ;; hret (Some r) | _ => hub end
      end
  end.
