(** Somebody who wants the session key of a client. *)
From Verif Require Import Base Nom Unicode Wire Structures Prims Messages Crypto Client Spec SpecCrypto SpecClient Samples SamplesClient SamplesLabour SamplesLmv2 SamplesTiming SpecTrace SpecQueries SamplesPlaces SamplesQueries SpecSecrecy SamplesSecrecy SpecForgery SpecPry.

(** What the client draws for a second reply, and the calls that lead to it *)
Definition other_draws : entropy := mkEntropy (repeat 5 8) (repeat 6 16) (e_clock sample_entropy).
Definition second : list op := [OpNegociate; OpRecvChallenge other_challenge; OpAuthenticate other_draws].
(** They serve two clients of one account, of levels 3 and 5, a challenge each, the second one
    for a reply as well, and let the first reply; then the first gets another challenge.  Before
    and after that they hash, and they use as RC4 key what they got. *)
Definition pair_of_clients (i : nat) : person :=
  let level := match i with O => 3 | _ => 5 end in
  mkPerson host_env level str_User str_Domain str_Password str_target (mixing_client level str_Password).
Definition sent (o : out) : bytes := match o with OutBytes b => b | _ => [] end.
(** What they say at last may depend on the NEGOTIATE, on the reply and on what RC4 gave. *)
Definition curious_then (say : bytes -> bytes -> bytes -> bytes) : prying :=
  Meeta 0%nat OpNegociate (fun n =>
  Maca (repeat 1 16) [1; 2; 3] (fun x =>
  Meeta 1%nat OpNegociate (fun _ =>
  Meeta 1%nat (OpRecvChallenge other_challenge) (fun _ =>
  Meeta 0%nat (OpRecvChallenge sealed_challenge) (fun _ =>
  Reply (e_client_challenge sample_entropy) (e_clock sample_entropy) (fun o =>
  Meetb 0%nat OpNegociate (fun _ =>
  Meetb 1%nat (OpAuthenticate other_draws) (fun _ =>
  Meetb 0%nat (OpRecvChallenge other_challenge) (fun _ =>
  Meetb 0%nat (OpAuthenticate other_draws) (fun _ =>
  Macb x (sent o) (fun y =>
  Rc4b y 16 (fun z => Claim (say (sent n) (sent o) z))))))))))))).
Definition curious : prying := curious_then (fun _ _ z => z).
(** Clients of levels 1 and 2. *)
Definition pair_of_old_clients (i : nat) : person :=
  let level := match i with O => 1 | _ => 2 end in
  mkPerson host_env level str_User str_Domain str_Password str_target
    match new_with_domain cfg_debug moving_prims host_env level str_User str_Domain str_Password str_target with
    | Val c => c
    | Panic _ => moving_client
    end.
(** What the second client is told. *)
Definition told_second : list op := [OpNegociate; OpRecvChallenge other_challenge; OpAuthenticate other_draws].
