(** Property theorems proved in [FactsPublic.v]; generated by tools/gen.py. *)
From Verif Require Import Base Nom Unicode Wire Structures Prims Messages Crypto Client Spec SpecBuild SpecCrypto SpecClient SpecRemote SpecPublic
  Lib Encode Decode RoundTrip Parse Samples FactsEncode FactsDecode FactsBuild FactsBuilt DesKey RealPrims FactsCrypto SamplesClient History Reply FactsClient FactsRemote FactsPublic.

(** * C111: Challenges made outside the crate *)
(** Exactly the challenges whose list of AV pairs has something in it before one EOL
    at its end, or is empty, can be made outside the crate. *)
Theorem C111_makeable : forall P c, prims_ok P ->
  makeable P c <-> valid_challenge c
    /\ (ch_target_infos c = [] \/ exists l, l <> [] /\ ~ In AvEOL l /\ ch_target_infos c = l ++ [AvEOL]).
Proof. exact C111_makeable_lem. Qed.
Print Assumptions C111_makeable.
(** So code that decodes challenges itself can hand every one over as it was received whose
    list has no EOL but the last, unless the list is nothing but EOL. *)
Theorem C111_received : forall cfg P b r c, prims_ok P -> is_bytes b -> challenge_de cfg b = POk r c ->
  makeable P c <-> (forall l m, ch_target_infos c = l ++ AvEOL :: m -> m = [] /\ l <> []).
Proof. exact C111_received_lem. Qed.
Print Assumptions C111_received.
(** False: every challenge that is received can be handed over. *)
Theorem C111_received_refuted : ~ (forall cfg P b r c, prims_ok P -> is_bytes b -> challenge_de cfg b = POk r c -> makeable P c).
Proof. exact C111_received_refuted_lem. Qed.
Print Assumptions C111_received_refuted.
(** Exactly when a client answers a challenge made outside the crate. *)
Theorem C111_answers_exactly : forall cfg P e level user dom pw target c h r ws ch,
  made cfg P e level user dom pw target c -> workstation_name P e ws -> is_entropy r ->
  negotiable level dom -> names_short user dom ws -> makeable P ch -> accepts h ch ->
  ((exists m, answer cfg P c h (OpAuthenticate r) = OutBytes m)
   <-> level <= 2 \/ (len (content (opt_map utf16le (get_target_name ch))) <= 65535
                       /\ len (av_list_bytes cfg (get_target_infos ch)) <= 65507 /\ response_time ch r <> None)).
Proof. exact C111_answers_exactly_lem. Qed.
Print Assumptions C111_answers_exactly.
(** False: a client whose clock is set answers every small list.  A target name of 32768
    characters, which no message can carry, stops it at level 3. *)
Theorem C111_named_refuted : ~ (forall cfg P e level user dom pw target c h r ws ch,
  made cfg P e level user dom pw target c -> workstation_name P e ws -> is_entropy r ->
  negotiable level dom -> names_short user dom ws -> makeable P ch -> accepts h ch ->
  len (av_list_bytes cfg (get_target_infos ch)) <= 65507 -> response_time ch r <> None ->
  exists m, answer cfg P c h (OpAuthenticate r) = OutBytes m).
Proof. exact C111_named_refuted_lem. Qed.
Print Assumptions C111_named_refuted.
Example C111_ex :
  makeable real_prims sealed_challenge /\ length (ch_target_infos sealed_challenge) = 7%nat
  /\ is_bytes (challenge_bytes cfg_debug sealed_challenge)
  /\ challenge_de cfg_debug (challenge_bytes cfg_debug sealed_challenge) = POk [] sealed_challenge
  /\ accepts (sample_history sealed_challenge) sealed_challenge
  /\ len (content (opt_map utf16le (get_target_name sealed_challenge))) = 12
  /\ response_time sealed_challenge sample_entropy <> None
  /\ ~ makeable real_prims (mkChallenge None 8388609 [1; 2; 3; 4; 5; 6; 7; 8] [AvNbDomainName str_Domain; AvEOL; AvEOL] None).
Proof. exact C111_ex_lem. Qed.
