(* C03: arrays of owned items. *)
From Verif.Base Require Import Bytes.
From Verif.Model Require Import Buffer Array.
From Verif.Spec Require Import ArraySpec.
From Verif.Proofs Require Import ArrayFacts.
Local Open Scope N_scope.

(* Any history of array operations behaves like fixed-size lists of optional values: no operation
   touches freed memory or frees twice, every output is the list model's output, and at every point
   the live objects are exactly as many as the items held (nothing leaks). *)
Theorem C03_array_refines_list : forall (V : Type) (ops : list (aop V)),
  Forall op_ok ops -> N.of_nat (length ops) < 2 ^ 34 ->
  exists s', arun ainit ops = Val (s', snd (sp_run [] ops)) /\
    length (live_list (s_world s')) = sp_items (fst (sp_run [] ops)).
Proof. exact @array_refines. Qed.
Print Assumptions C03_array_refines_list.

Example C03_case :
  let ops := [ONew 3; OSet 0 1 (Some x41) true; OSet 0 3 (Some x42) true; OSet 0 2 (Some x43) false;
              OCopy 0 (fun _ => true); OSet 0 1 (Some x44) true; OFetch 1 1; OFetch 0 1; OSetFrom 1 0 0 1 true;
              ODestroy 0; OFetch 1 0; OFetchCopy 1 1 true; OCopy 1 (fun i => i =? 0)] in
  Forall op_ok ops /\
  snd (sp_run [] ops) =
    [OutBool true; OutBool true; OutBool false; OutBool false; OutBool true; OutBool true; OutItem (Some x41);
     OutItem (Some x44); OutBool true; OutNone; OutItem (Some x44); OutItem (Some x41); OutBool false] /\
  sp_items (fst (sp_run [] ops)) = 2%nat.
Proof. cbv zeta. split; [repeat constructor|split; reflexivity]. Qed.

(* Outside these histories (an item stored without a copy and later replaced with copy = true, the
   owner still holding it) the replacement frees the owner's object: the owner's next use is a use
   after free. *)
Theorem C03_mixed_ownership_refuted :
  exists (w : world byte) (a : arr) p q w1 w2 a1 a2,
    w_obj w p = Some x01 /\ w_obj w q = Some x02 /\
    array_set_item true w (Some a) 0 p false = Val (w1, a1, true) /\
    array_set_item true w1 a1 0 q true = Val (w2, a2, true) /\
    w_obj w2 p = None.
Proof.
  exists {| w_next := 3; w_obj := fun p => if p =? 1 then Some x01 else if p =? 2 then Some x02 else None |},
         {| a_size := 1; a_store := Some (repeat x00 8) |}, 1, 2.
  do 4 eexists. repeat split; reflexivity.
Qed.
Print Assumptions C03_mixed_ownership_refuted.
