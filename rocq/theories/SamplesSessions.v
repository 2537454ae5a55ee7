(** Session keys of one client under different draws. *)
From Verif Require Import Base Nom Unicode Wire Structures Prims Messages Crypto Client Spec SpecCrypto SpecClient Samples SamplesClient SamplesLabour SamplesLmv2 SamplesTiming SpecTrace SpecQueries SamplesPlaces SamplesQueries SamplesKeystream.

(** UNICODE and NTLM, neither EXTENDED_SESSIONSECURITY nor KEY_EXCH *)
Definition bare_challenge : challenge := mkChallenge None 513 [1; 35; 69; 103; 137; 171; 205; 239] [] None.
Definition drawn_key (level : N) (ch : challenge) (r : entropy) : bytes :=
  match session_key (run cfg_debug adding_prims (adding_client level) [OpNegociate; OpRecvChallenge ch; OpAuthenticate r]) with
  | Some k => k
  | None => []
  end.
