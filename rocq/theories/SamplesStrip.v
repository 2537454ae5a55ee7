(** A challenge with the flags for protection taken away. *)
From Verif Require Import Base Nom Unicode Wire Structures Prims Messages Crypto Client Spec SpecCrypto SpecClient Samples SamplesClient SamplesLabour SamplesLmv2.

(** [sealed_challenge] without SIGN, SEAL, ALWAYS_SIGN, KEY_EXCH and 128, and with no word about
    the server. *)
Definition stripped_challenge : challenge :=
  mkChallenge None (N.ldiff (ch_flags sealed_challenge) (2 ^ 4 + 2 ^ 5 + 2 ^ 15 + 2 ^ 29 + 2 ^ 30)) (ch_server_challenge sealed_challenge) [] None.
(** What a client keeps as session key. *)
Definition toy_key (P : prims) (level : N) (ch : challenge) : bytes :=
  match session_key (run cfg_debug P (toy_client P level) (sample_history ch ++ [OpAuthenticate sample_entropy])) with Some k => k | None => [] end.
