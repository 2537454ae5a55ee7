(** Property theorems proved in [FactsStrict.v]; generated by tools/gen.py. *)
From Verif Require Import Base Nom Unicode Wire Structures Prims Messages Crypto Client Spec SpecBuild SpecCrypto SpecClient Lib Encode Decode RoundTrip Parse Samples FactsEncode FactsDecode FactsBuild DesKey RealPrims FactsCrypto SamplesClient History Reply FactsClient FactsReply FactsTrace FactsGuard SamplesTiming SamplesPlaces FactsTiming FactsPlaces SamplesConform Strict SpecStrict FactsStrict.

(** * C118: What strict mode would check *)
(** Exactly the words that MS-NLMP 2.2.2.5 forbids would be rejected, in strict builds. *)
Theorem C118_words : forall cfg f rest, is_u32 f ->
  (strict cfg = true -> invalid_flags f -> s_flags_de cfg (le32 f ++ rest) = PErr EError)
  /\ (strict cfg = false \/ ~ invalid_flags f -> s_flags_de cfg (le32 f ++ rest) = POk rest f).
Proof. exact C118_words_lem. Qed.
Print Assumptions C118_words.
(** The decoders of the messages: nothing but the flag word is looked at in addition. *)
Theorem C118_messages : forall cfg b,
  also_checks cfg b 12 (s_negotiate_de cfg b) (negotiate_de cfg b)
  /\ also_checks cfg b 20 (s_challenge_de cfg b) (challenge_de cfg b)
  /\ also_checks cfg b 60 (s_authenticate_de cfg b) (authenticate_de cfg b).
Proof. exact C118_messages_lem. Qed.
Print Assumptions C118_messages.
(** The offers of a client would all be accepted. *)
Theorem C118_offers : forall cfg P e level user dom pw target c,
  made cfg P e level user dom pw target c -> negotiable level dom ->
  exists b n, (forall h, answer cfg P c h OpNegociate = OutBytes b) /\ forall cfg', s_negotiate_de cfg' b = POk [] n.
Proof. exact C118_offers_lem. Qed.
Print Assumptions C118_offers.
(** So would its replies at levels 3 to 5, and at levels 0 to 2 those to challenges that are
    not forbidden themselves and have UNICODE set; without UNICODE they would be rejected. *)
Theorem C118_replies : forall cfg P e level user dom pw ch r b, replies cfg P e level user dom pw ch r b -> forall cfg',
  (3 <= level -> s_authenticate_de cfg' b = authenticate_de cfg' b)
  /\ (level <= 2 -> ~ invalid_flags (ch_flags ch) -> N.testbit (ch_flags ch) 0 = true -> s_authenticate_de cfg' b = authenticate_de cfg' b)
  /\ (level <= 2 -> strict cfg' = true -> N.testbit (ch_flags ch) 0 = false -> s_authenticate_de cfg' b = PErr EError).
Proof. exact C118_replies_lem. Qed.
Print Assumptions C118_replies.
(** Not all replies to challenges that are not forbidden would be accepted. *)
Theorem C118_replies_refuted : ~ (forall cfg P e level user dom pw ch r b, replies cfg P e level user dom pw ch r b ->
  ~ invalid_flags (ch_flags ch) -> forall cfg', s_authenticate_de cfg' b = authenticate_de cfg' b).
Proof. exact C118_replies_refuted_lem. Qed.
Print Assumptions C118_replies_refuted.
(** Challenges made with the setters would be accepted. *)
Theorem C118_challenges : forall cfg P ops tail, host_le cfg = true ->
  let c := chal_build P challenge_default ops in
  Forall valid_av_pair (all_added P ops) -> Forall (carried_av cfg) (all_added P ops) ->
  (forall s, In (SetTargetName (Some s)) ops -> plain_string s /\ s <> []) ->
  len (utf16le (match get_target_name c with Some s => s | None => [] end)) <= 65535 ->
  len (av_list_bytes cfg (get_target_infos c)) <= 65535 ->
  exists b, serialize cfg (challenge_ser cfg c) = Val b /\ s_challenge_de cfg (b ++ tail) = POk [] c.
Proof. exact C118_challenges_lem. Qed.
Print Assumptions C118_challenges.
Example C118_ex :
  strict cfg_strict = true /\ invalid_flags 0 /\ s_flags_de cfg_strict (le32 0) = PErr EError /\ s_flags_de cfg_debug (le32 0) = POk [] 0
  /\ ~ invalid_flags 513 /\ s_flags_de cfg_strict (le32 513 ++ [7]) = POk [7] 513
  /\ (forall level, In level [0; 3] ->
      replies cfg_debug mixing_prims host_env level str_User str_Domain str_Password old_challenge sample_entropy (mixing_reply level str_Password old_challenge)
      /\ exists a, s_authenticate_de cfg_strict (mixing_reply level str_Password old_challenge) = POk [] a)
  /\ ~ invalid_flags (ch_flags old_challenge) /\ N.testbit (ch_flags old_challenge) 0 = true
  /\ ~ invalid_flags (ch_flags oem_challenge) /\ N.testbit (ch_flags oem_challenge) 0 = false
  /\ replies cfg_debug mixing_prims host_env 0 str_User str_Domain str_Password oem_challenge sample_entropy (mixing_reply 0 str_Password oem_challenge)
  /\ s_authenticate_de cfg_strict (mixing_reply 0 str_Password oem_challenge) = PErr EError.
Proof. exact C118_ex_lem. Qed.
