(** Property theorems proved in [FactsIgnore.v]; generated by tools/gen.py. *)
From Verif Require Import Base Nom Unicode Wire Structures Prims Messages Spec SpecIgnore Lib Encode Decode RoundTrip Parse Samples FactsEncode FactsDecode FactsIgnore.

(** * C91: Every byte of a message counts *)
(** A decoder looks at the bytes of the specification only: errors and panics included,
    its result is the same on inputs that agree on them. *)
Theorem C91_negotiate_ignores : forall cfg b c, agree_at (negotiate_used b) b c -> negotiate_de cfg b = negotiate_de cfg c.
Proof. exact C91_negotiate_ignores_lem. Qed.
Print Assumptions C91_negotiate_ignores.
Theorem C91_challenge_ignores : forall cfg b c, agree_at (challenge_used cfg b) b c -> challenge_de cfg b = challenge_de cfg c.
Proof. exact C91_challenge_ignores_lem. Qed.
Print Assumptions C91_challenge_ignores.
Theorem C91_authenticate_ignores : forall cfg b c, agree_at (authenticate_used b) b c -> authenticate_de cfg b = authenticate_de cfg c.
Proof. exact C91_authenticate_ignores_lem. Qed.
Print Assumptions C91_authenticate_ignores.
(** "Different bytes decode differently" is false of each decoder. *)
Theorem C91_one_encoding_refuted :
  ~ (forall cfg b c n, is_bytes b -> is_bytes c -> negotiate_de cfg b = POk [] n -> negotiate_de cfg c = POk [] n -> b = c)
  /\ ~ (forall cfg b c n, is_bytes b -> is_bytes c -> challenge_de cfg b = POk [] n -> challenge_de cfg c = POk [] n -> b = c)
  /\ ~ (forall cfg b c n, is_bytes b -> is_bytes c -> authenticate_de cfg b = POk [] n -> authenticate_de cfg c = POk [] n -> b = c).
Proof. exact C91_one_encoding_refuted_lem. Qed.
Print Assumptions C91_one_encoding_refuted.
(** In three messages, the positions where adding 1 to the byte changes nothing: maximal
    lengths, reserved bytes, and the lengths of fields whose last bytes are not read. *)
Example C91_ex :
  ignored_positions (same_result negotiate_bytes) (negotiate_de cfg_debug) (negotiate_bytes sample_negotiate)
    = [18; 19; 26; 27]
  /\ ignored_positions (same_result (challenge_bytes cfg_debug)) (challenge_de cfg_debug) (challenge_bytes cfg_debug sample_challenge)
    = [12; 14; 15; 32; 33; 34; 35; 36; 37; 38; 39; 42; 43]
  /\ ignored_positions (same_result (authenticate_bytes cfg_debug)) (authenticate_de cfg_debug) (authenticate_bytes cfg_debug sample_authenticate)
    = [12; 14; 15; 20; 22; 23; 28; 30; 31; 36; 38; 39; 44; 46; 47; 54; 55]
  /\ agree_at (negotiate_used (negotiate_bytes sample_negotiate)) (negotiate_bytes sample_negotiate)
       (with_byte (negotiate_bytes sample_negotiate) 18 77).
Proof. exact C91_ex_lem. Qed.
