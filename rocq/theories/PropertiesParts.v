(** Property theorems proved in [FactsParts.v]; generated by tools/gen.py. *)
From Verif Require Import Base Nom Unicode Wire Structures Prims Messages Crypto Client Spec SpecBuild SpecCrypto SpecClient SpecServer SpecParts Lib Parse Encode Decode RoundTrip Samples FactsEncode FactsDecode FactsBuild DesKey RealPrims FactsCrypto SamplesClient History Reply FactsClient FactsReply FactsParts.

(** * C95: NTLMv1 responses can only be attacked as a whole *)
(** Each third of the NT response can be attacked by itself: the part of the
    NT hash that belongs to it passes the observer's test, ... *)
Theorem C95_parts : forall cfg P e level user dom pw ch r b, level <= 2 -> host_le cfg = true ->
  replies cfg P e level user dom pw ch r b ->
  let h := NTOWFv1 P pw in
  part_test P ch b 0 (sub h 0 7) = true /\ part_test P ch b 1 (sub h 7 7) = true
  /\ part_test P ch b 2 (sub h 14 2 ++ zeros 5) = true.
Proof. exact C95_parts_lem. Qed.
Print Assumptions C95_parts.
(** ... and any three parts that pass, found separately, are a hash that gives
    the same NT response. *)
Theorem C95_parts_suffice : forall cfg P e level user dom pw ch r b k0 k1 k2, level <= 2 -> host_le cfg = true ->
  replies cfg P e level user dom pw ch r b ->
  length k0 = 7%nat -> length k1 = 7%nat -> length k2 = 2%nat ->
  part_test P ch b 0 k0 = true -> part_test P ch b 1 k1 = true -> part_test P ch b 2 (k2 ++ zeros 5) = true ->
  v1_nt_response P (ch_flags ch) (k0 ++ k1 ++ k2) (ch_server_challenge ch) (sub (field_data b 12) 0 8) = field_data b 20.
Proof. exact C95_parts_suffice_lem. Qed.
Print Assumptions C95_parts_suffice.
(** For the last two bytes of the NT hash 65536 tries are enough. *)
Theorem C95_last_two : forall cfg P e level user dom pw ch r b, level <= 2 -> host_le cfg = true ->
  replies cfg P e level user dom pw ch r b ->
  len byte_pairs = 65536
  /\ In (byte_at (NTOWFv1 P pw) 14, byte_at (NTOWFv1 P pw) 15) (last_two P ch b).
Proof. exact C95_last_two_lem. Qed.
Print Assumptions C95_last_two.
(** The LM response tells that a password is short: at level 0, without
    EXTENDED_SESSIONSECURITY, its last third is the same for all ASCII
    passwords of at most 7 characters, whoever they belong to. *)
Theorem C95_short_passwords : forall cfg P e user dom pw ch r b cfg' e' user' dom' pw' ch' r' b',
  replies cfg P e 0 user dom pw ch r b -> replies cfg' P e' 0 user' dom' pw' ch' r' b' ->
  host_le cfg = true -> host_le cfg' = true -> ESS (ch_flags ch) = false -> ESS (ch_flags ch') = false ->
  ch_server_challenge ch = ch_server_challenge ch' ->
  is_ascii pw -> is_ascii pw' -> len pw <= 7 -> len pw' <= 7 ->
  sub (field_data b 12) 16 8 = sub (field_data b' 12) 16 8.
Proof. exact C95_short_passwords_lem. Qed.
Print Assumptions C95_short_passwords.
(** Two users with passwords of 4 and 6 characters; the parts of a reply, right and wrong. *)
Example C95_ex :
  (exists b, replies cfg_debug real_prims host_env 0 str_User str_Domain str_User old_challenge sample_entropy b
     /\ sub (field_data b 12) 16 8 <> sub (field_data (sample_reply 0 old_challenge) 12) 16 8)
  /\ (exists b, replies cfg_debug real_prims host_env 0 str_Domain str_Domain str_Domain old_challenge sample_entropy b)
  /\ replies cfg_debug real_prims host_env 0 str_User str_Domain str_Password old_challenge sample_entropy (sample_reply 0 old_challenge)
  /\ ESS (ch_flags old_challenge) = false /\ is_ascii str_User /\ is_ascii str_Domain /\ len str_User = 4 /\ len str_Domain = 6
  /\ part_test real_prims old_challenge (sample_reply 0 old_challenge) 2 [0; 0; 0; 0; 0; 0; 0] = false
  /\ part_test real_prims sample_challenge (sample_reply 2 sample_challenge) 0 (sub (NTOWFv1 real_prims str_Password) 0 7) = true.
Proof. exact C95_ex_lem. Qed.
