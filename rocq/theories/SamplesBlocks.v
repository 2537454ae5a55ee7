(** A client of level 1 that answers two challenges, and somebody who talks to two such clients
    and encrypts under the keys of another password. *)
From Verif Require Import Base Nom Unicode Wire Structures Prims Messages Crypto Client Spec SpecCrypto SpecClient SpecServer Samples SamplesClient SamplesLabour SamplesLmv2 SamplesTiming SpecTrace SpecQueries SamplesPlaces SamplesQueries SpecForgery SamplesForgery SpecBlocks.

(** What the client of level [level] says. *)
Definition old_said (level : N) (P : prims) : list out := transcript cfg_debug P (mixing_client level str_Password) two_replies.
(** DES with 0 as its value at one block, under all keys. *)
Definition zero_at (x : bytes) : bytes -> bytes -> bytes :=
  fun k y => if list_eq_dec N.eq_dec y x then zeros 8 else p_des mixing_prims k y.
(** The DES keys of the sample password. *)
Definition key1 : bytes := expand_key [80; 0; 97; 0; 115; 0; 115].
Definition key2 : bytes := expand_key [0; 119; 0; 111; 0; 114; 0].
Definition key3 : bytes := expand_key [100; 0; 0; 0; 0; 0; 0].

Definition old_folk (i : nat) : person :=
  mkPerson host_env 1 str_User str_Domain str_Password str_target (mixing_client 1 str_Password).
Definition wild_guess : plan :=
  Ask 0 OpNegociate (fun _ => Ask 7 OpNegociate (fun _ =>
  Ask 0 (OpRecvChallenge sealed_challenge) (fun _ => Ask 7 (OpRecvChallenge other_challenge) (fun _ =>
  Ask 7 (OpAuthenticate sample_entropy) (fun _ => Ask 0 (OpAuthenticate sample_entropy) (fun _ =>
  use_hash (NTOWFv1 mixing_prims str_Secret) third_nonce (utf16le str_User) (utf16le str_Domain) (zeros 8))))))).
Definition wild_points : list (bytes * bytes) :=
  map (fun k => (k, third_nonce)) (des_keys (NTOWFv1 mixing_prims str_Secret)).
Definition wild_sent : bytes := snd (attempt cfg_debug mixing_prims (fun i => pe_client (old_folk i)) wild_guess [] []).
Definition hash_sent : bytes := snd (attempt cfg_debug mixing_prims (fun i => pe_client (old_folk i))
  (use_hash (NTOWFv1 mixing_prims str_Password) third_nonce (utf16le str_User) (utf16le str_Domain) (zeros 8)) [] []).
Definition relay_v1_sent : bytes :=
  snd (attempt cfg_debug mixing_prims (fun i => pe_client (old_folk i)) (relay_v1 other_challenge sample_entropy) [] []).
(** The CHALLENGE message of [other_challenge], as far as a server reads its own. *)
Definition other_message : bytes := zeros 20 ++ le32 513 ++ ch_server_challenge other_challenge.
