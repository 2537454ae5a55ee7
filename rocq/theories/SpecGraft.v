(** Specification vocabulary for replies whose LM response is replaced. *)
From Verif Require Import Base.

(** The message [b] with [cc] and zeros for an LM response, which is at 80 to 103. *)
Definition graft (b cc : bytes) : bytes := firstn 80 b ++ (cc ++ zeros 16) ++ skipn 104 b.
