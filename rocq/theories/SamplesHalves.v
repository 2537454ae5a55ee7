(** Replies of level 0 with different passwords. *)
From Verif Require Import Base Nom Unicode Wire Structures Prims Messages Crypto Client Spec SpecCrypto SpecClient Samples SamplesClient SamplesLabour SamplesLmv2 SamplesPlaces.

(** "pASSWOrdXXXXXX", which differs from "Password" in the second half, and in case *)
Definition str_pASSWOrdX : rstring := [112; 65; 83; 83; 87; 79; 114; 100; 88; 88; 88; 88; 88; 88].
(** What [mixing_client] replies, when it has this password. *)
Definition word_reply (pw : rstring) : bytes :=
  match answer cfg_debug mixing_prims (mixing_client 0 pw) (sample_history old_challenge) (OpAuthenticate sample_entropy) with
  | OutBytes b => b
  | _ => []
  end.
