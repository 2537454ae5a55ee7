(** Somebody who talks to a client of level 3 and one of level 1, and uses a wrong password. *)
From Verif Require Import Base Nom Unicode Wire Structures Prims Messages Crypto Client Spec SpecCrypto SpecClient SpecServer SpecLmv2 Samples SamplesClient SamplesLabour SamplesLmv2 SamplesTiming SpecTrace SpecQueries SamplesPlaces SamplesQueries SpecForgery SamplesForgery SpecBlocks SamplesBlocks SpecScheme.

(** The first has level 3, all others level 1. *)
Definition folk (i : nat) : person := match i with O => anybody 0 | S _ => old_folk i end.
Definition both_guess : scheme :=
  Talk 0 OpNegociate (fun _ => Talk 7 OpNegociate (fun _ =>
  Talk 0 (OpRecvChallenge sealed_challenge) (fun _ => Talk 7 (OpRecvChallenge other_challenge) (fun _ =>
  Talk 7 (OpAuthenticate sample_entropy) (fun _ => Talk 0 (OpAuthenticate sample_entropy) (fun _ =>
  Mac (NTOWFv2 mixing_prims str_Secret str_User str_Domain) (third_nonce ++ zeros 8) (fun y =>
  Cipher key1 (ch_server_challenge other_challenge) (fun a => Cipher key2 third_nonce (fun b => Cipher key3 third_nonce (fun c =>
  Finish (hash_message (utf16le str_User) (utf16le str_Domain) (firstn 8 y) (a ++ b ++ c)))))))))))).
Definition both_done : deeds := carry_out cfg_debug mixing_prims (fun i => pe_client (folk i)) both_guess [] [] [].
