(* Arrays as fixed-size lists of optional values.  The operations and outputs are the
   client's vocabulary (Model/Array.v: aop, aout); no pointers, no memory. *)
From Verif.Base Require Import Bytes.
From Verif.Model Require Import Array.
Local Open Scope N_scope.

Section Spec.
Context {V : Type}.
(* the array behind a handle; None = no such array (never created, or destroyed) *)
Definition sp_state := list (option (list (option V))).
Definition sp_arr (s : sp_state) (h : nat) : option (list (option V)) := nth h s None.
Definition sp_item (s : sp_state) (h : nat) (i : N) : option V :=
  match sp_arr s h with Some a => nth (N.to_nat i) a None | None => None end.
Fixpoint replace_nth {A} (l : list A) (n : nat) (x : A) : list A :=
  match l, n with
  | [], _ => []
  | _ :: l', O => x :: l'
  | y :: l', S n' => y :: replace_nth l' n' x
  end.
(* a set succeeds when the index exists and the item, if any, could be copied *)
Definition sp_set (s : sp_state) (h : nat) (i : N) (v : option V) (ok : bool) : sp_state * aout V :=
  match sp_arr s h with
  | Some a =>
      if (i <? N.of_nat (length a)) && (match v with Some _ => ok | None => true end)
      then (replace_nth s h (Some (replace_nth a (N.to_nat i) v)), OutBool true)
      else (s, OutBool false)
  | None => (s, OutBool false)
  end.
(* every present item could be copied *)
Fixpoint all_ok (oks : N -> bool) (i : N) (a : list (option V)) : bool :=
  match a with
  | [] => true
  | None :: a' => all_ok oks (i + 1) a'
  | Some _ :: a' => oks i && all_ok oks (i + 1) a'
  end.
Definition sp_step (s : sp_state) (o : aop V) : sp_state * aout V :=
  match o with
  | ONew count =>
      if (count =? 0) || (8 * count <=? 2147483631)
      then (s ++ [Some (repeat None (N.to_nat count))], OutBool true)
      else (s ++ [None], OutBool false)
  | OSet h i v ok => sp_set s h i v ok
  | OSetFrom h i h' j ok => sp_set s h i (sp_item s h' j) ok
  | OFetch h i => (s, OutItem (sp_item s h i))
  | OFetchCopy h i ok => (s, OutItem (if ok then sp_item s h i else None))
  | OCopy h oks =>
      match sp_arr s h with
      | Some a => if all_ok oks 0 a then (s ++ [Some a], OutBool true) else (s ++ [None], OutBool false)
      | None => (s ++ [None], OutBool false)
      end
  | ODestroy h => (replace_nth s h None, OutNone)
  end.
Fixpoint sp_run (s : sp_state) (ops : list (aop V)) : sp_state * list (aout V) :=
  match ops with
  | [] => (s, [])
  | o :: ops' => let (s1, out) := sp_step s o in let (s2, outs) := sp_run s1 ops' in (s2, out :: outs)
  end.
Definition sp_items (s : sp_state) : nat :=
  length (filter isome (concat (map (fun o => match o with Some a => a | None => [] end) s))).
(* item counts are 32-bit in the API *)
Definition op_ok (o : aop V) : Prop := match o with ONew count => count < two32 | _ => True end.
(* the objects that are allocated and not freed *)
Definition live_list (w : world V) : list N :=
  filter (fun p => isome (w_obj w p)) (map N.of_nat (seq 0 (N.to_nat (w_next w)))).
End Spec.
