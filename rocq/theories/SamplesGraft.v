(** A server with EXTENDED_SESSIONSECURITY, and a client that is asked without it. *)
From Verif Require Import Base Nom Unicode Wire Structures Prims Messages Crypto Client Spec SpecCrypto SpecClient SpecServer Samples SamplesClient SamplesLabour SamplesLmv2 SamplesTiming SamplesPlaces.

(** Cheap primitives; the MD5 begins with the end of the text, backwards. *)
Definition turning_prims : prims :=
  mkPrims (p_md4 mixing_prims) (fun m => fit 16 (rev m)) (p_hmac_md5 mixing_prims) (p_des mixing_prims)
    (p_rc4_stream mixing_prims) (p_upper mixing_prims).
(** What the server sent *)
Definition secure_sent : bytes := challenge_bytes cfg_debug sealed_challenge.
(** The client challenge that somebody chose, and what they give the client to answer *)
Definition chosen : bytes := [11; 12; 13; 14; 15; 16; 17; 18].
Definition asked : challenge := mkChallenge None 513 (rev chosen) [] None.
Definition asked_client (level : N) : client :=
  match new_with_domain cfg_debug turning_prims host_env level str_User str_Domain str_Password str_target with
  | Val c => c
  | Panic _ => mkClient StNew [] [] [] [] [] None [] [] None 0
  end.
Definition asked_reply (level : N) : bytes :=
  match answer cfg_debug turning_prims (asked_client level) (sample_history asked) (OpAuthenticate sample_entropy) with
  | OutBytes b => b
  | _ => []
  end.
(** The server knows one account, by whatever name. *)
Definition one_account : database := fun _ _ => Some (mkAccount str_User str_Domain str_Password).
