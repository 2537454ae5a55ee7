(** Specification vocabulary for the key streams that encrypt session keys. *)
From Verif Require Import Base.

(** Two byte strings, xored byte by byte. *)
Definition XOR (a b : bytes) : bytes := map (fun p => N.lxor (fst p) (snd p)) (combine a b).
