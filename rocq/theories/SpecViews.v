(** Specification vocabulary for views of text. *)
From Verif Require Import Base Unicode Views.

(** Memory after a call that gave back all it allocated: the blocks there were
    are as they were, those that came are freed. *)
Definition tidy (h h' : heap) : Prop := exists k, h' = h ++ repeat Freed k.
(** The call has defined behaviour, gives back all memory, and ends as [x] says. *)
Definition safely {A : Type} (r : ran A) (h : heap) (x : outcome A) : Prop :=
  match r, x with
  | Ran h' a, Val b => tidy h h' /\ a = b
  | Panicked h' r, Panic r' => tidy h h' /\ r = r'
  | _, _ => False
  end.
(** A vector for the text and some spare room is not larger than vectors can be. *)
Definition roomy (text : rstring) (spare : N) : Prop := (len (encode_utf16 text) + spare) * 2 <= 2 ^ 63 - 1.
