(** Property theorems proved in [FactsMic.v]; generated by tools/gen.py. *)
From Verif Require Import Base Nom Unicode Wire Structures Prims Messages Crypto Client Spec SpecBuild SpecCrypto SpecClient SpecServer Lib Encode Decode RoundTrip Parse Samples FactsEncode FactsDecode FactsBuild DesKey RealPrims FactsCrypto SamplesClient History Reply FactsClient FactsReply FactsMic.

(** * C83: The MIC stands where MS-NLMP puts it *)
(** Where the MIC is written, and where the fields start behind it. *)
Theorem C83_encoded : forall cfg a b, valid_authenticate a -> serialize cfg (authenticate_ser cfg a) = Val b ->
  match a_version a with
  | Some v => sub b 64 8 = version_bytes v /\ standard_mic b = a_mic a
  | None => sub b 64 16 = a_mic a /\ standard_mic b = sub (a_mic a) 8 8 ++ sub b 80 8
  end.
Proof. exact C83_encoded_lem. Qed.
Print Assumptions C83_encoded.
(** Where it is read. *)
Theorem C83_decoded : forall cfg b r a, is_bytes b -> authenticate_de cfg b = POk r a ->
  (N.testbit (u32_at b 60) 25 = true -> a_mic a = standard_mic b)
  /\ (standard_without_version b -> a_mic a = zeros 8 ++ sub (standard_mic b) 0 8).
Proof. exact C83_decoded_lem. Qed.
Print Assumptions C83_decoded.
Theorem C83_encoded_refuted : ~ (forall cfg a b, valid_authenticate a ->
  serialize cfg (authenticate_ser cfg a) = Val b -> standard_mic b = a_mic a).
Proof. exact C83_encoded_refuted_lem. Qed.
Print Assumptions C83_encoded_refuted.
Theorem C83_decoded_refuted : ~ (forall cfg b r a, is_bytes b -> standard_without_version b ->
  authenticate_de cfg b = POk r a -> a_mic a = standard_mic b).
Proof. exact C83_decoded_refuted_lem. Qed.
Print Assumptions C83_decoded_refuted.
(** What a conforming server takes for the MIC of a reply: the second half of
    it, followed by the first 8 bytes of the LM response. *)
Theorem C83_replies : forall cfg P e level user dom pw ch r b, 3 <= level ->
  replies cfg P e level user dom pw ch r b ->
  standard_mic b = sub (sub b 64 16) 8 8 ++ sub (field_data b 12) 0 8
  /\ N.testbit (u32_at b 60) 25 = false.
Proof. exact C83_replies_lem. Qed.
Print Assumptions C83_replies.
Example C83_ex : valid_authenticate sample_authenticate /\ a_version sample_authenticate <> None
  /\ (exists b, serialize cfg_debug (authenticate_ser cfg_debug sample_authenticate) = Val b)
  /\ replies cfg_debug real_prims host_env 3 str_User str_Domain str_Password sealed_challenge sample_entropy (sample_reply 3 sealed_challenge).
Proof. exact C83_ex_lem. Qed.

(** * C84: Replies that carry a MIC announce it *)
Theorem C84_echoed : forall cfg P e level user dom pw ch r b, host_le cfg = true -> 3 <= level ->
  replies cfg P e level user dom pw ch r b ->
  skipn 28 (field_data b 20) = av_list_bytes cfg (ch_target_infos ch)
  /\ field_data b 12 = v2_lm_response P (NTOWFv2 P pw user dom) (ch_server_challenge ch) (e_client_challenge r).
Proof. exact C84_echoed_lem. Qed.
Print Assumptions C84_echoed.
Theorem C84_announced_refuted : ~ (forall cfg P e level user dom pw ch r b l, 3 <= level -> gives_time (ch_target_infos ch) ->
  replies cfg P e level user dom pw ch r b -> carries_infos cfg b l -> announces_mic l).
Proof. exact C84_announced_refuted_lem. Qed.
Print Assumptions C84_announced_refuted.
Theorem C84_lm_response_refuted : ~ (forall cfg P e level user dom pw ch r b, 3 <= level -> gives_time (ch_target_infos ch) ->
  replies cfg P e level user dom pw ch r b -> field_data b 12 = zeros 24).
Proof. exact C84_lm_response_refuted_lem. Qed.
Print Assumptions C84_lm_response_refuted.
Example C84_ex :
  replies cfg_debug real_prims host_env 4 str_User str_Domain str_Password timed_challenge sample_entropy (sample_reply 4 timed_challenge)
  /\ len (field_data (sample_reply 4 timed_challenge) 20) = 60.
Proof. exact C84_ex_lem. Qed.
