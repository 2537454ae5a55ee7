(** Code that is in the repository and is not part of the built crate. *)
From Verif Require Import Base Nom Unicode Wire Structures Debug.

(** ** The second arm of [generate_setter_getter!], src/messages.rs:18-52, which is
    invoked nowhere: a vector field of items, with its flag.  [eqb] is the [==] of the items. *)
Record flagged (T : Type) := mkFlagged { fg_flags : flags; fg_items : list T }.
Arguments mkFlagged {T}. Arguments fg_flags {T}. Arguments fg_items {T}.
Section Items.
  Context {T : Type}.
  Variable eqb : T -> T -> bool.
  Variable flag : N.
  (** messages.rs:19-26, [$add] *)
  Definition item_add (s : flagged T) (x : T) : flagged T :=
    if existsb (fun y => eqb y x) (fg_items s) then s
    else mkFlagged (set_flag (fg_flags s) flag) (fg_items s ++ [x]).
  (** messages.rs:29-35: the index of the first equal item *)
  Fixpoint find_index (l : list T) (x : T) : option nat :=
    match l with
    | [] => None
    | y :: r => if eqb y x then Some 0%nat else option_map S (find_index r x)
    end.
  (** [Vec::remove(index)] *)
  Definition remove_at (l : list T) (i : nat) : list T := firstn i l ++ skipn (S i) l.
  (** messages.rs:28-43, [$del] *)
  Definition item_del (s : flagged T) (x : T) : flagged T :=
    match find_index (fg_items s) x with
    | None => s
    | Some i =>
        let l := remove_at (fg_items s) i in
        mkFlagged (if is_nil l then clear_flag (fg_flags s) flag else fg_flags s) l
    end.
  (** messages.rs:44-48, [$clear] *)
  Definition item_clear (s : flagged T) : flagged T := mkFlagged (clear_flag (fg_flags s) flag) [].
  (** messages.rs:49-51, [$get] *)
  Definition item_get (s : flagged T) : list T := fg_items s.
End Items.

(** ** src/messages/structures/encrypted_random_session_key.rs, which no [mod]
    declares: a key of any length *)
(** src/messages/structures/encrypted_random_session_key.rs:11-17 *)
Definition loose_key_ser (k : bytes) : ser := raww k (len k).
(** src/messages/structures/encrypted_random_session_key.rs:19-24: all the input, whatever it is *)
Definition loose_key_de : parser bytes := fun i => POk [] i.
(** src/messages/structures/encrypted_random_session_key.rs:53-60 *)
Definition loose_key_debug (k : bytes) : rstring := buffer_debug k.
