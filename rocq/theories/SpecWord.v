(** Comparison of decoders on machines of different word sizes. *)
From Verif Require Import Base Nom Wire Structures Messages Spec Word.

(** [x], the result on a machine of [w] bits, is [y], that on one of 64 bits;
    only in debug builds with words of 32 bits an out of range field can be an
    overflow instead. *)
Definition like_wide (w : N) (cfg : config) {A : Type} (x y : pres A) : Prop :=
  x = y \/ (x = PPanic POverflow /\ y = PPanic PSlice /\ debug cfg = true /\ w < 33).
