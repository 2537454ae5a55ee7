(** Somebody who changes a NEGOTIATE. *)
From Verif Require Import Base Nom Unicode Wire Structures Prims Messages Crypto Client Spec SpecCrypto SpecClient SpecBuild SpecServer Samples SamplesClient SamplesLabour SamplesLmv2 SamplesTiming SpecTrace SpecQueries SamplesPlaces SamplesQueries SpecSecrecy SamplesSecrecy SpecForgery SpecPry SamplesPry.

(** The flags of a NEGOTIATE without the three that ask for protection (SIGN and SEAL are in the
    first byte, ALWAYS_SIGN is in the second). *)
Definition unprotected (n : bytes) : bytes :=
  firstn 12 n ++ map (fun p => N.ldiff (fst p) (snd p)) (combine (sub n 12 2) [48; 128]) ++ skipn 14 n.
(** They say that the reply belongs to this NEGOTIATE, with what they have got for the MIC. *)
Definition meddling : prying :=
  curious_then (fun n b z => z ++ unprotected n ++ challenge_bytes cfg_debug sealed_challenge ++ zero_mic b).
(** What the client sent as NEGOTIATE. *)
Definition mixed_offer : bytes :=
  sent (answer cfg_debug mixing_prims (mixing_client 3 str_Password) no_reply OpNegociate).
