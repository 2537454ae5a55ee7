(** Property theorems proved in [FactsUnused.v]; generated by tools/gen.py. *)
From Verif Require Import Base Nom Unicode Wire Structures Prims Messages Spec SpecBuild SpecDebug Lib Encode Decode RoundTrip Parse Samples Debug FactsEncode FactsDecode FactsBuild FactsDebug FactsVersioned Unused SpecUnused FactsUnused.

(** * C114: Source that is not built in *)
(** The setters of the unused arm would keep the flag in step with the items: no item
    twice, those that were added and not deleted since, and no other flag touched. *)
Theorem C114_items : forall (T : Type) (eqb : T -> T -> bool) flag s h,
  (forall x y, eqb x y = true <-> x = y) -> flag <= 31 -> in_step flag s ->
  let s' := fold_left (item_apply eqb flag) h s in
  in_step flag s' /\ (forall j, j <> flag -> N.testbit (fg_flags s') j = N.testbit (fg_flags s) j)
  /\ forall x, In x (item_get s') <-> present (item_get s) h x.
Proof. exact C114_items_lem. Qed.
Print Assumptions C114_items.
(** Adding puts a new item last; deleting keeps the others in their order. *)
Theorem C114_order : forall (T : Type) (eqb : T -> T -> bool) flag s x,
  (forall x y, eqb x y = true <-> x = y) -> NoDup (item_get s) ->
  (~ In x (item_get s) -> item_get (item_add eqb flag s x) = item_get s ++ [x])
  /\ (In x (item_get s) -> item_add eqb flag s x = s)
  /\ item_get (item_del eqb flag s x) = filter (fun y => negb (eqb y x)) (item_get s).
Proof. exact C114_order_lem. Qed.
Print Assumptions C114_order.
(** The key type that no module declares carries any bytes; the one that is
    built in agrees with it exactly on inputs of 16 bytes. *)
Theorem C114_key : forall b,
  (forall w, loose_key_ser b w = Val (len b, w ++ b)) /\ loose_key_de b = POk [] b /\ loose_key_debug b = buffer_debug b
  /\ (buf_de 16 b = loose_key_de b <-> len b = 16)
  /\ (len b = 16 -> loose_key_ser b = buf_ser 16 b).
Proof. exact C114_key_lem. Qed.
Print Assumptions C114_key.
Example C114_ex :
  let s := mkFlagged 1 [7; 9] in
  in_step 0 s /\ (forall x y, (x =? y) = true <-> x = y)
  /\ fold_left (item_apply N.eqb 0) [AddItem 9; DelItem 7; AddItem 5; AddItem 7] s = mkFlagged 1 [9; 5; 7]
  /\ fold_left (item_apply N.eqb 0) [DelItem 9; DelItem 7; DelItem 7] s = mkFlagged 0 []
  /\ fold_left (item_apply N.eqb 0) [ClearItems; AddItem 3] s = mkFlagged 1 [3]
  /\ buf_de 16 (repeat 3 16) = POk [] (repeat 3 16) /\ loose_key_de (repeat 3 17) = POk [] (repeat 3 17)
  /\ buf_de 16 (repeat 3 17) = POk [3] (repeat 3 16).
Proof. exact C114_ex_lem. Qed.
