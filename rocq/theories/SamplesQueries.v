(** A client that answers two challenges. *)
From Verif Require Import Base Nom Unicode Wire Structures Prims Messages Crypto Client Spec SpecCrypto SpecClient Samples SamplesClient SamplesLabour SamplesLmv2 SamplesTiming SpecTrace SpecQueries SamplesPlaces.

Definition other_challenge : challenge :=
  mkChallenge None 513 [8; 7; 6; 5; 4; 3; 2; 1] [] None.
Definition two_replies : list op :=
  [OpNegociate; OpRecvChallenge sealed_challenge; OpAuthenticate sample_entropy;
   OpNegociate; OpRecvChallenge other_challenge; OpAuthenticate sample_entropy].
(** A server challenge that is in neither. *)
Definition third_nonce : bytes := [9; 9; 9; 9; 9; 9; 9; 9].
(** What the client says when HMAC-MD5 is replaced by [v] at one message under its NTLMv2 key. *)
Definition said_with (m v : bytes) : list out :=
  transcript cfg_debug (with_hmac mixing_prims (changed_at mixing_prims (NTOWFv2 mixing_prims str_Password str_User str_Domain) m v))
    (mixing_client 3 str_Password) two_replies.
Definition said : list out := transcript cfg_debug mixing_prims (mixing_client 3 str_Password) two_replies.
