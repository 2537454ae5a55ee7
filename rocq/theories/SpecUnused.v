(** What calls to the unused setters should amount to. *)
From Verif Require Import Base Nom Unicode Wire Structures Debug Unused.

Inductive item_op (T : Type) := AddItem (x : T) | DelItem (x : T) | ClearItems.
Arguments AddItem {T}. Arguments DelItem {T}. Arguments ClearItems {T}.
Definition item_apply {T} (eqb : T -> T -> bool) (flag : N) (s : flagged T) (o : item_op T) : flagged T :=
  match o with
  | AddItem x => item_add eqb flag s x
  | DelItem x => item_del eqb flag s x
  | ClearItems => item_clear flag s
  end.
(** After the calls [h], on a field that held [l]: [x] was added, or was in [l],
    and has not been deleted since. *)
Definition untouched {T} (x : T) (h : list (item_op T)) : Prop := ~ In (DelItem x) h /\ ~ In ClearItems h.
Definition present {T} (l : list T) (h : list (item_op T)) (x : T) : Prop :=
  (In x l /\ untouched x h) \/ exists h1 h2, h = h1 ++ AddItem x :: h2 /\ untouched x h2.
(** The flag tells whether there are items; no item is there twice. *)
Definition in_step {T} (flag : N) (s : flagged T) : Prop :=
  is_u32 (fg_flags s) /\ NoDup (fg_items s) /\ (N.testbit (fg_flags s) flag = true <-> fg_items s <> []).
