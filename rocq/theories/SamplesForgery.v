(** A strategy that talks to two clients, hashes with a wrong key and sends what it got. *)
From Verif Require Import Base Nom Unicode Wire Structures Prims Messages Crypto Client Spec SpecCrypto SpecClient SpecServer SpecLmv2 Samples SamplesClient SamplesLabour SamplesLmv2 SamplesTiming SpecTrace SpecQueries SamplesPlaces SamplesQueries SpecForgery.

(** Everybody is the client of one account. *)
Definition anybody (i : nat) : person :=
  mkPerson host_env 3 str_User str_Domain str_Password str_target (mixing_client 3 str_Password).
Definition guess : strategy :=
  Call 0 OpNegociate (fun _ => Call 7 OpNegociate (fun _ =>
  Call 0 (OpRecvChallenge sealed_challenge) (fun _ => Call 7 (OpRecvChallenge other_challenge) (fun _ =>
  Call 7 (OpAuthenticate sample_entropy) (fun o => Call 0 (OpAuthenticate sample_entropy) (fun _ =>
  Hash (NTOWFv2 mixing_prims str_Secret str_User str_Domain) (third_nonce ++ e_client_challenge sample_entropy) (fun x =>
  Send (match o with
        | OutBytes b => key_message (field_data b 36) (field_data b 28) (x ++ e_client_challenge sample_entropy)
        | _ => []
        end)))))))).
Definition one_account : database := fun u d => Some (mkAccount str_User str_Domain str_Password).
(** A CHALLENGE message, as far as a server reads its own. *)
Definition third_message : bytes := zeros 24 ++ third_nonce.
Definition sealed_message : bytes := zeros 24 ++ ch_server_challenge sealed_challenge.
Definition guess_calls : list (nat * op) :=
  [(0%nat, OpNegociate); (7%nat, OpNegociate);
   (0%nat, OpRecvChallenge sealed_challenge); (7%nat, OpRecvChallenge other_challenge);
   (7%nat, OpAuthenticate sample_entropy); (0%nat, OpAuthenticate sample_entropy)].
Definition guess_hashed : list (bytes * bytes) :=
  [(NTOWFv2 mixing_prims str_Secret str_User str_Domain, third_nonce ++ e_client_challenge sample_entropy)].
Definition guess_sent : bytes := snd (play cfg_debug mixing_prims (fun i => pe_client (anybody i)) guess [] []).
Definition relay_sent : bytes :=
  snd (play cfg_debug mixing_prims (fun i => pe_client (anybody i)) (relay sealed_challenge sample_entropy) [] []).
