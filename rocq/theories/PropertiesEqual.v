(** Property theorems proved in [FactsEqual.v]; generated by tools/gen.py. *)
From Verif Require Import Base Nom Unicode Wire Structures Prims Messages Crypto Client Spec SpecBuild SpecCrypto SpecClient SpecTrace Lib Encode Decode RoundTrip Parse Inject Samples FactsEncode FactsDecode FactsBuild DesKey RealPrims FactsCrypto SamplesClient History Reply FactsClient FactsReply FactsInject Equal FactsEqual.

(** * C123: Comparing messages *)
(** Two messages are [==] exactly if they are the same in all their fields. *)
Theorem C123_messages :
  (forall a b, valid_negotiate a -> valid_negotiate b -> (negotiate_eq a b = true <-> a = b))
  /\ (forall a b, valid_challenge a -> valid_challenge b -> (challenge_eq a b = true <-> a = b))
  /\ (forall a b, valid_authenticate a -> valid_authenticate b -> (authenticate_eq a b = true <-> a = b)).
Proof. exact C123_messages_lem. Qed.
Print Assumptions C123_messages.
(** So are structures. *)
Theorem C123_structures :
  (forall a b, valid_av_pair a -> valid_av_pair b -> (av_pair_eq a b = true <-> a = b))
  /\ (forall a b, valid_lm a -> valid_lm b -> (lm_challenge_eq a b = true <-> a = b))
  /\ (forall a b, valid_nt a -> valid_nt b -> (nt_challenge_eq a b = true <-> a = b))
  /\ (forall a b, is_string a -> is_string b -> (string_eq a b = true <-> a = b))
  /\ (forall a b, version_eq a b = true <-> a = b) /\ (forall a b, filetime_eq a b = true <-> a = b)
  /\ (forall a b, single_host_eq a b = true <-> a = b) /\ (forall a b, signature_eq a b = true <-> a = b)
  /\ (forall a b, field_eq a b = true <-> a = b) /\ (forall a b, av_id_eq a b = true <-> a = b)
  /\ (forall a b, av_flags_eq a b = true <-> a = b) /\ (forall a b, flags_eq a b = true <-> a = b)
  /\ (forall a b, buf_eq a b = true <-> a = b).
Proof. exact C123_structures_lem. Qed.
Print Assumptions C123_structures.
(** NEGOTIATE and CHALLENGE messages are [==] exactly if they are written as the same bytes. *)
Theorem C123_bytes : forall cfg,
  (forall n m b b', valid_negotiate n -> valid_negotiate m ->
     serialize cfg (negotiate_ser n) = Val b -> serialize cfg (negotiate_ser m) = Val b' -> (negotiate_eq n m = true <-> b = b'))
  /\ (forall c d b b', valid_challenge c -> valid_challenge d ->
     serialize cfg (challenge_ser cfg c) = Val b -> serialize cfg (challenge_ser cfg d) = Val b' -> (challenge_eq c d = true <-> b = b')).
Proof. exact C123_bytes_lem. Qed.
Print Assumptions C123_bytes.
(** An AUTHENTICATE that is written and read again should be [==] to the first: it is so
    exactly if it holds no exported session key. *)
Theorem C123_authenticate : forall cfg a, host_le cfg = true -> valid_authenticate a -> carried_authenticate cfg a ->
  exists b a', serialize cfg (authenticate_ser cfg a) = Val b /\ authenticate_de cfg b = POk [] a'
    /\ (authenticate_eq a' a = true <-> a_exported_key a = None).
Proof. exact C123_authenticate_lem. Qed.
Print Assumptions C123_authenticate.
Theorem C123_authenticate_refuted :
  ~ (forall cfg a b a', host_le cfg = true -> valid_authenticate a -> carried_authenticate cfg a ->
      serialize cfg (authenticate_ser cfg a) = Val b -> authenticate_de cfg b = POk [] a' -> authenticate_eq a' a = true).
Proof. exact C123_authenticate_refuted_lem. Qed.
Print Assumptions C123_authenticate_refuted.
(** Messages that differ in one place only, and that are written as the same bytes. *)
Example C123_ex :
  valid_negotiate sample_negotiate /\ valid_challenge sample_challenge /\ valid_authenticate sample_authenticate
  /\ (exists b, serialize cfg_debug (negotiate_ser sample_negotiate) = Val b) /\ (exists b, serialize cfg_debug (challenge_ser cfg_debug sample_challenge) = Val b)
  /\ carried_authenticate cfg_debug sample_authenticate /\ a_exported_key sample_authenticate <> None
  /\ negotiate_eq sample_negotiate sample_negotiate = true /\ negotiate_eq sample_negotiate negotiate_default = false
  /\ challenge_eq sample_challenge sample_challenge = true
  /\ challenge_eq sample_challenge
       (mkChallenge (ch_target_name sample_challenge) (ch_flags sample_challenge) (ch_server_challenge sample_challenge)
          (ch_target_infos sample_challenge ++ [AvEOL]) (ch_version sample_challenge)) = false
  /\ authenticate_eq sample_authenticate sample_authenticate = true
  /\ authenticate_eq sample_authenticate (with_exported_key sample_authenticate (Some (repeat 8 15 ++ [9]))) = false
  /\ string_eq str_accent [233] = false
  /\ lm_challenge_eq (LmV1 (repeat 3 24)) (LmV2 (repeat 3 16) (repeat 3 8)) = false
  /\ serialize cfg_debug (lm_challenge_ser (LmV1 (repeat 3 24))) = serialize cfg_debug (lm_challenge_ser (LmV2 (repeat 3 16) (repeat 3 8))).
Proof. exact C123_ex_lem. Qed.
