(** Specification vocabulary for the bytes of a message that depend on something. *)
From Verif Require Import Base.

(** The two byte strings have different bytes at position [i]. *)
Definition apart (b b' : bytes) (i : N) : Prop := nth (N.to_nat i) b 0 <> nth (N.to_nat i) b' 0.
(** Position [i] is one of the [n] bytes from [a] on. *)
Definition within (i a n : N) : Prop := a <= i < a + n.
