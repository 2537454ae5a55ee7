(** Specification vocabulary for an observer who has seen a challenge and the
    reply to it, and knows no secret. *)
From Verif Require Import Base Nom Unicode Wire Structures Prims Messages Crypto Client Spec SpecCrypto SpecClient SpecServer.

(** What the NT response of the reply [b] to the challenge [ch] encrypts; the
    first 8 bytes of the LM response are the client challenge if it counts. *)
Definition observed_plain (P : prims) (ch : challenge) (b : bytes) : bytes :=
  v1_plain P (ch_flags ch) (ch_server_challenge ch) (sub (field_data b 12) 0 8).
(** The observer tries [k], 7 bytes, as the key of the [i]-th third of the NT response. *)
Definition part_test (P : prims) (ch : challenge) (b : bytes) (i : N) (k : bytes) : bool :=
  beq_bytes (sub (field_data b 20) (8 * i) 8) (DES P k (observed_plain P ch b)).
(** All pairs of bytes. *)
Definition all_bytes : list N := map N.of_nat (seq 0 256).
Definition byte_pairs : list (N * N) := list_prod all_bytes all_bytes.
(** The last two bytes of the NT hash, as far as the observer cannot exclude them. *)
Definition last_two (P : prims) (ch : challenge) (b : bytes) : list (N * N) :=
  filter (fun p => part_test P ch b 2 [fst p; snd p; 0; 0; 0; 0; 0]) byte_pairs.
