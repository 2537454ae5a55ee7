(** Sample version functions. *)
From Verif Require Import Base Nom Unicode Wire Structures Prims Messages Crypto Client Levels.

(** Answers [l] to the first [n] calls and [l'] to the later ones. *)
Definition turning (n : nat) (l l' : N) : versions := fun k => if (k <? n)%nat then l else l'.
