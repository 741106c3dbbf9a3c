(* Model of src/wickrcrypto/src/array.c.
   Items are heap objects holding a value of type V.  A world records which objects are live.
   Simplification: a freed address is never handed out again, so any use of a freed object
   is caught as undefined behaviour.  The item copy function either fails (the boolean given
   to it) or makes a new object with the same value; the destroy function frees. *)
From Verif.Base Require Import Bytes.
From Verif.Model Require Import Buffer.
Local Open Scope N_scope.
Local Open Scope res_scope.

Section Array.
Context {V : Type}.

Record world := { w_next : N; w_obj : N -> option V }.
Definition w_set (w : world) (p : N) (o : option V) : world :=
  {| w_next := w_next w; w_obj := fun q => if q =? p then o else w_obj w q |}.
(* malloc of an item *)
Definition item_new (w : world) (v : V) : world * N :=
  let p := w_next w in
  ({| w_next := p + 1; w_obj := fun q => if q =? p then Some v else w_obj w q |}, p).
(* item_copy_func: 0 is NULL *)
Definition item_copy (ok : bool) (w : world) (p : N) : res (world * N) :=
  match w_obj w p with
  | None => UB                                   (* not a live object *)
  | Some v => Val (if ok then item_new w v else (w, 0))
  end.
(* item_destroy_func *)
Definition item_destroy (w : world) (p : N) : res world :=
  match w_obj w p with None => UB | Some _ => Val (w_set w p None) end.

(* array.c:4-10; item_type and the two function pointers are fixed *)
Record arr := { a_size : N; a_store : option bytes }.

(* array.c:15-48 *)
Definition array_new (item_count : N) : option arr :=
  if item_count =? 0 then Some {| a_size := 0; a_store := None |}
  else match buffer_create_empty_zero ((8 * item_count) mod two64) with
       | None => None
       | Some b => Some {| a_size := item_count; a_store := Some b |}
       end.

(* array.c:50-57 *)
Definition array_get_item_count (a : option arr) : N :=
  match a with None => 0 | Some x => a_size x end.

(* array.c:59-75; reading outside the store or through a NULL store is undefined *)
Definition array_pointer_to_index (a : option arr) (index : N) : res N :=
  match a with
  | None => Val 0
  | Some x =>
      if a_size x <=? index then Val 0
      else match a_store x with
           | None => UB
           | Some b => w <- memread b (8 * index) 8 ;; Val (le_dec w)
           end
  end.

(* array.c:77-101; result: the new world, the new array, the returned bool *)
Definition array_set_item (ok : bool) (w : world) (a : option arr) (index item : N) (copy : bool)
  : res (world * option arr * bool) :=
  match a with
  | None => Val (w, a, false)
  | Some x =>
      if a_size x <=? index then Val (w, a, false)
      else
        wp <- (if item =? 0 then Val (w, 0)
               else if copy then item_copy ok w item else Val (w, item)) ;;
        if negb (item =? 0) && (snd wp =? 0) then Val (fst wp, a, false)
        else
          one <- array_pointer_to_index a index ;;
          w2 <- (if negb (one =? 0) && copy then item_destroy (fst wp) one else Val (fst wp)) ;;
          match buffer_modify_section_raw (a_store x) (Some (le_enc 8 (snd wp))) ((index * 8) mod two64) 8 with
          | Val b' => Val (w2, Some {| a_size := a_size x; a_store := Some b' |}, true)
          | Null => Val (w2, a, false)
          | UB => UB
          end
  end.

(* array.c:103-117; result: the new world and the returned pointer *)
Definition array_fetch_item (ok : bool) (w : world) (a : option arr) (index : N) (copy : bool) : res (world * N) :=
  item <- array_pointer_to_index a index ;;
  if item =? 0 then Val (w, 0)
  else if copy then item_copy ok w item else Val (w, item).

(* array.c:146-153: the destroy loop over indices i, i+1, ..., i+n-1 *)
Fixpoint destroy_loop (n : nat) (i : N) (w : world) (a : option arr) : res world :=
  match n with
  | O => Val w
  | S n' =>
      one <- array_pointer_to_index a i ;;
      w' <- (if one =? 0 then Val w else item_destroy w one) ;;
      destroy_loop n' (i + 1) w' a
  end.
(* array.c:139-159 *)
Definition array_destroy (w : world) (a : option arr) (destroy_items : bool) : res world :=
  match a with
  | None => Val w
  | Some x => if destroy_items then destroy_loop (N.to_nat (a_size x)) 0 w a else Val w
  end.

(* array.c:127-134; oks i says whether copying item i succeeds.  The copy under construction is
   destroyed when an item cannot be set. *)
Fixpoint copy_loop (n : nat) (i : N) (oks : N -> bool) (w : world) (a c : option arr) (deep : bool)
  : res (world * option arr) :=
  match n with
  | O => Val (w, c)
  | S n' =>
      one <- array_pointer_to_index a i ;;
      r <- array_set_item (oks i) w c i one deep ;;
      match r with
      | (w', c', true) => copy_loop n' (i + 1) oks w' a c' deep
      | (w', c', false) => w2 <- array_destroy w' c' deep ;; Val (w2, None)
      end
  end.
(* array.c:119-137 *)
Definition array_copy (oks : N -> bool) (w : world) (a : option arr) (deep : bool) : res (world * option arr) :=
  match a with
  | None => Val (w, None)
  | Some x => copy_loop (N.to_nat (a_size x)) 0 oks w a (array_new (a_size x)) deep
  end.

(* ---- client histories: several arrays, every item put in with copy = true ---- *)
Inductive aop :=
| ONew (count : N)                                   (* new array, next handle *)
| OSet (h : nat) (i : N) (v : option V) (ok : bool)  (* set a fresh item with copy; the client frees its own *)
| OSetFrom (h : nat) (i : N) (h' : nat) (j : N) (ok : bool) (* set array h from the item fetched from h' *)
| OFetch (h : nat) (i : N)                           (* fetch without copy *)
| OFetchCopy (h : nat) (i : N) (ok : bool)           (* fetch a copy, look at it, free it *)
| OCopy (h : nat) (oks : N -> bool)                  (* deep copy into the next handle *)
| ODestroy (h : nat).                                (* destroy with items *)
Inductive aout := OutBool (b : bool) | OutItem (v : option V) | OutNone.

Record astate := { s_world : world; s_arrs : list (option arr) }.
Definition hget (l : list (option arr)) (h : nat) : option arr := nth h l None.
Fixpoint hset {A} (l : list A) (h : nat) (a : A) : list A :=
  match l, h with
  | [], _ => []
  | _ :: l', O => a :: l'
  | x :: l', S h' => x :: hset l' h' a
  end.
Definition isome {A} (o : option A) : bool := match o with Some _ => true | None => false end.
Definition look (w : world) (p : N) : res (option V) :=
  if p =? 0 then Val None else match w_obj w p with Some v => Val (Some v) | None => UB end.

Definition astep (s : astate) (o : aop) : res (astate * aout) :=
  let w := s_world s in
  let l := s_arrs s in
  match o with
  | ONew count =>
      let a := array_new count in
      Val ({| s_world := w; s_arrs := (l ++ [a])%list |}, OutBool (isome a))
  | OSet h i None ok =>
      r <- array_set_item ok w (hget l h) i 0 true ;;
      match r with (w', a', b) => Val ({| s_world := w'; s_arrs := hset l h a' |}, OutBool b) end
  | OSet h i (Some v) ok =>
      let '(w1, p) := item_new w v in
      r <- array_set_item ok w1 (hget l h) i p true ;;
      match r with (w', a', b) =>
        w2 <- item_destroy w' p ;;
        Val ({| s_world := w2; s_arrs := hset l h a' |}, OutBool b) end
  | OSetFrom h i h' j ok =>
      f <- array_fetch_item true w (hget l h') j false ;;
      r <- array_set_item ok (fst f) (hget l h) i (snd f) true ;;
      match r with (w', a', b) => Val ({| s_world := w'; s_arrs := hset l h a' |}, OutBool b) end
  | OFetch h i =>
      f <- array_fetch_item true w (hget l h) i false ;;
      v <- look (fst f) (snd f) ;;
      Val ({| s_world := fst f; s_arrs := l |}, OutItem v)
  | OFetchCopy h i ok =>
      f <- array_fetch_item ok w (hget l h) i true ;;
      v <- look (fst f) (snd f) ;;
      w' <- (if snd f =? 0 then Val (fst f) else item_destroy (fst f) (snd f)) ;;
      Val ({| s_world := w'; s_arrs := l |}, OutItem v)
  | OCopy h oks =>
      r <- array_copy oks w (hget l h) true ;;
      Val ({| s_world := fst r; s_arrs := (l ++ [snd r])%list |}, OutBool (isome (snd r)))
  | ODestroy h =>
      w' <- array_destroy w (hget l h) true ;;
      Val ({| s_world := w'; s_arrs := hset l h None |}, OutNone)
  end.
Fixpoint arun (s : astate) (ops : list aop) : res (astate * list aout) :=
  match ops with
  | [] => Val (s, [])
  | o :: ops' =>
      r <- astep s o ;;
      r2 <- arun (fst r) ops' ;;
      Val (fst r2, snd r :: snd r2)
  end.
Definition ainit : astate := {| s_world := {| w_next := 1; w_obj := fun _ => None |}; s_arrs := [] |}.
End Array.
Arguments world : clear implicits.
Arguments astate : clear implicits.
Arguments aop : clear implicits.
Arguments aout : clear implicits.
