(** Property theorems proved in [FactsWord.v]; generated by tools/gen.py. *)
From Verif Require Import Base Nom Unicode Wire Structures Prims Messages Word Spec SpecWord Lib Encode Decode Samples FactsWord.

(** * C85: The same results on machines with 32-bit words *)
Theorem C85_word_size : forall w cfg b, 32 <= w -> is_bytes b -> len b < 2 ^ w ->
  like_wide w cfg (w_negotiate_de w cfg b) (negotiate_de cfg b)
  /\ like_wide w cfg (w_challenge_de w cfg b) (challenge_de cfg b)
  /\ like_wide w cfg (w_authenticate_de w cfg b) (authenticate_de cfg b).
Proof. exact C85_word_size_lem. Qed.
Print Assumptions C85_word_size.
(** With at least 33 bits there is no difference at all, and on one of 32 bits none in a release build. *)
Theorem C85_equal : forall w cfg b, 32 <= w -> (33 <= w \/ debug cfg = false) -> is_bytes b -> len b < 2 ^ w ->
  w_negotiate_de w cfg b = negotiate_de cfg b /\ w_challenge_de w cfg b = challenge_de cfg b
  /\ w_authenticate_de w cfg b = authenticate_de cfg b.
Proof. exact C85_equal_lem. Qed.
Print Assumptions C85_equal.
(** The exception exists, and with words of 16 bits another field is read. *)
Theorem C85_exact : exists b, is_bytes b /\ len b < 100
  /\ w_negotiate_de 32 cfg_debug b = PPanic POverflow /\ negotiate_de cfg_debug b = PPanic PSlice.
Proof. exact C85_exact_lem. Qed.
Print Assumptions C85_exact.
Theorem C85_narrow_refuted : ~ (forall w cfg b r n, 16 <= w -> is_bytes b -> len b < 2 ^ w ->
  w_negotiate_de w cfg b = POk r n -> negotiate_de cfg b = POk r n).
Proof. exact C85_narrow_refuted_lem. Qed.
Print Assumptions C85_narrow_refuted.
Example C85_ex : exists b, is_bytes b /\ len b < 2 ^ 32
  /\ w_authenticate_de 32 cfg_debug b = POk [] (with_exported_key sample_authenticate None).
Proof. exact C85_ex_lem. Qed.
