(** Property theorems proved in [FactsRemote.v]; generated by tools/gen.py. *)
From Verif Require Import Base Nom Unicode Wire Structures Prims Messages Crypto Client Spec SpecBuild SpecCrypto SpecClient SpecStream SpecRemote Lib Encode Decode RoundTrip Parse Samples FactsEncode FactsDecode FactsBuild DesKey RealPrims FactsCrypto SamplesClient History Reply FactsClient FactsHandshake FactsEndian FactsEffort SamplesRemote FactsRemote.

(** * C109: No challenge stops a client *)
(** Exactly when a client answers the challenge it decoded from the bytes of
    the server and accepted: always at levels 0 to 2; above, if the list of AV
    pairs leaves room for 28 bytes in a field. *)
Theorem C109_answers_exactly : forall cfg P e level user dom pw target c h r ws b rest ch,
  made cfg P e level user dom pw target c -> workstation_name P e ws -> is_entropy r ->
  negotiable level dom -> names_short user dom ws ->
  is_bytes b -> challenge_de cfg b = POk rest ch -> accepts h ch ->
  ((exists m, answer cfg P c h (OpAuthenticate r) = OutBytes m)
   <-> level <= 2 \/ (len (av_list_bytes cfg (ch_target_infos ch)) <= 65507 /\ response_time ch r <> None)).
Proof. exact C109_answers_exactly_lem. Qed.
Print Assumptions C109_answers_exactly.
(** So no message whose target info field has at most 65507 bytes stops a
    client whose clock is set. *)
Theorem C109_small_challenges : forall cfg P e level user dom pw target c h r ws b rest ch,
  made cfg P e level user dom pw target c -> workstation_name P e ws -> is_entropy r ->
  negotiable level dom -> names_short user dom ws ->
  is_bytes b -> challenge_de cfg b = POk rest ch -> accepts h ch ->
  field_len b 40 <= 65507 -> (exists t, filetime_try_from (e_clock r) = inl t) ->
  exists m, answer cfg P c h (OpAuthenticate r) = OutBytes m.
Proof. exact C109_small_challenges_lem. Qed.
Print Assumptions C109_small_challenges.
(** How long a reply is, and that it grows with the challenge by no more than
    the list in it. *)
Theorem C109_size : forall cfg P e level user dom pw target c h r ws b rest ch m,
  made cfg P e level user dom pw target c -> workstation_name P e ws -> is_entropy r ->
  is_bytes b -> challenge_de cfg b = POk rest ch -> accepts h ch ->
  answer cfg P c h (OpAuthenticate r) = OutBytes m ->
  len m = (if level <=? 2 then 144 else 148 + len (av_list_bytes cfg (ch_target_infos ch))) + names_bytes user dom ws
  /\ len m <= 148 + field_len b 40 + names_bytes user dom ws
  /\ (level <= 5 /\ names_short user dom ws -> len m <= 262288).
Proof. exact C109_size_lem. Qed.
Print Assumptions C109_size.
(** False: a client answers every challenge it accepts.  A challenge of 65556
    bytes stops it at level 3. *)
Theorem C109_answers_refuted : ~ (forall cfg P e level user dom pw target c h r ws b rest ch,
  made cfg P e level user dom pw target c -> workstation_name P e ws -> is_entropy r ->
  negotiable level dom -> names_short user dom ws ->
  is_bytes b -> challenge_de cfg b = POk rest ch -> accepts h ch ->
  (exists t, filetime_try_from (e_clock r) = inl t) ->
  exists m, answer cfg P c h (OpAuthenticate r) = OutBytes m).
Proof. exact C109_answers_refuted_lem. Qed.
Print Assumptions C109_answers_refuted.
(** One letter less and the reply comes. *)
Example C109_ex : let b := challenge_bytes cfg_debug (wordy_challenge 32743) in
  is_bytes b /\ challenge_de cfg_debug b = POk [] (wordy_challenge 32743)
  /\ names_short str_User str_Domain (Some str_COMPUTER)
  /\ exists m, answer cfg_debug real_prims (sample_client 3) (sample_history (wordy_challenge 32743))
                 (OpAuthenticate sample_entropy) = OutBytes m /\ len m = 65690.
Proof. exact C109_ex_lem. Qed.
