(** Specification vocabulary for an observer of LM responses, who guesses half of a password at
    a time. *)
From Verif Require Import Base Nom Unicode Wire Structures Prims Messages Crypto Client Spec SpecCrypto.

(** The tests of an observer who has seen a server challenge [sc] and the LM response [lm].
    [g], [g1] and [g2] are guesses of 7 bytes of the password, in upper case. *)
Definition first_fits (P : prims) (sc lm g : bytes) : bool :=
  beq_bytes (sub lm 0 8) (DES P (sub (DES P g MAGIC) 0 7) sc).
Definition last_fits (P : prims) (sc lm g : bytes) : bool :=
  beq_bytes (sub lm 16 8) (DES P (sub (DES P g MAGIC) 6 2 ++ zeros 5) sc).
Definition both_fit (P : prims) (sc lm g1 g2 : bytes) : bool :=
  beq_bytes (sub lm 8 8) (DES P (sub (DES P g1 MAGIC) 7 1 ++ sub (DES P g2 MAGIC) 0 6) sc).
(** The search: the words are tried as first and as second halves, and those that are left as
    pairs. *)
Definition search (P : prims) (sc lm : bytes) (words : list bytes) : list (bytes * bytes) :=
  filter (fun p => both_fit P sc lm (fst p) (snd p))
    (list_prod (filter (first_fits P sc lm) words) (filter (last_fits P sc lm) words)).
