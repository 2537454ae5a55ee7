(** Property theorems proved in [FactsSent.v]; generated by tools/gen.py. *)
From Verif Require Import Base Nom Unicode Wire Structures Prims Messages Crypto Client Spec SpecBuild SpecCrypto SpecConform SpecClient Lib Encode Decode RoundTrip Parse Samples FactsEncode FactsDecode FactsBuild DesKey RealPrims FactsCrypto SamplesClient History Reply FactsClient FactsReply FactsTrace SamplesSent FactsSent.

(** * C107: What a client sends are messages of MS-NLMP *)
(** A domain of ASCII characters: the message a client sends first is the NEGOTIATE of MS-NLMP
    with this domain, announced by bit 12, and nothing else. *)
Theorem C107_offer : forall cfg P e level user dom pw target c h b,
  made cfg P e level user dom pw target c -> answer cfg P c h OpNegociate = OutBytes b ->
  is_ascii dom ->
  client_offers b (mkNegotiate (u32_at b 12) (match dom with [] => None | _ => Some dom end) None None)
  /\ (N.testbit (u32_at b 12) 12 = true <-> dom <> []) /\ N.testbit (u32_at b 12) 13 = false.
Proof. exact C107_offer_lem. Qed.
Print Assumptions C107_offer.
(** OEM text has a byte for each character; the domain in the message has so only if it is ASCII. *)
Theorem C107_offer_only : forall cfg P e level user dom pw target c h b,
  made cfg P e level user dom pw target c -> answer cfg P c h OpNegociate = OutBytes b ->
  (field_len b 16 = len dom <-> is_ascii dom).
Proof. exact C107_offer_only_lem. Qed.
Print Assumptions C107_offer_only.
(** Levels 0 to 2, if the server has negotiated UNICODE and no version: the reply is the AUTHENTICATE
    of MS-NLMP with the responses of MS-NLMP, the names, a session key of 16 bytes and no version. *)
Theorem C107_answer_old : forall cfg P e level user dom pw ws ch r b klm, host_le cfg = true -> level <= 2 ->
  workstation_name P e ws -> lmowfv1 P pw = Val klm -> replies cfg P e level user dom pw ch r b ->
  N.testbit (ch_flags ch) 0 = true -> N.testbit (ch_flags ch) 25 = false ->
  let a := mkAnswer (u32_at b 60)
    (v1_lm_response P (ch_flags ch) (NTOWFv1 P pw) klm (ch_server_challenge ch) (e_client_challenge r) (1 <=? level))
    (v1_nt_response P (ch_flags ch) (NTOWFv1 P pw) (ch_server_challenge ch) (e_client_challenge r))
    dom user (content ws) (field_data b 52) None (sub b 72 16) in
  client_answers b a /\ usual_answer a.
Proof. exact C107_answer_old_lem. Qed.
Print Assumptions C107_answer_old.
(** Otherwise it is no such message. *)
Theorem C107_answer_old_only : forall cfg P e level user dom pw ch r b a, level <= 2 ->
  replies cfg P e level user dom pw ch r b -> client_answers b a -> usual_answer a ->
  N.testbit (ch_flags ch) 0 = true /\ N.testbit (ch_flags ch) 25 = false.
Proof. exact C107_answer_old_only_lem. Qed.
Print Assumptions C107_answer_old_only.
(** Levels 3 to 5: the MIC stands where MS-NLMP has the version. The reply is an AUTHENTICATE of MS-NLMP
    just if the first 8 bytes of its MIC happen to be zeros. *)
Theorem C107_answer : forall cfg P e level user dom pw ws ch r b, 3 <= level ->
  workstation_name P e ws -> replies cfg P e level user dom pw ch r b ->
  (sub b 64 8 = zeros 8 ->
   let a := mkAnswer (u32_at b 60) (field_data b 12) (field_data b 20) dom user (content ws) (field_data b 52) None (sub b 72 16) in
   client_answers b a /\ usual_answer a)
  /\ (forall a, client_answers b a -> sub b 64 8 = zeros 8).
Proof. exact C107_answer_lem. Qed.
Print Assumptions C107_answer.
(** The NT response of levels 3 to 5 is an NTLMv2 response of MS-NLMP only if the client challenge drawn is
    the head of the client challenge structure, and then for an NTProofStr that is this head and a time. *)
Theorem C107_v2_never : forall cfg P e level user dom pw ch r b proof t cc l, 3 <= level ->
  replies cfg P e level user dom pw ch r b -> is_buffer 16 proof ->
  field_data b 20 = v2_response proof t cc l ->
  e_client_challenge r = v2_head
  /\ exists t', response_time ch r = Some t' /\ proof = v2_head ++ filetime_bytes t'.
Proof. exact C107_v2_never_lem. Qed.
Print Assumptions C107_v2_never.
Theorem C107_refuted : ~ (forall cfg P e level user dom pw ch r b, host_le cfg = true ->
  replies cfg P e level user dom pw ch r b -> exists a, client_answers b a).
Proof. exact C107_refuted_lem. Qed.
Print Assumptions C107_refuted.
Example C107_ex :
  answer cfg_debug real_prims (sample_client 2) (sample_history sealed_challenge) OpNegociate
     = OutBytes [78; 84; 76; 77; 83; 83; 80; 0; 1; 0; 0; 0; 55; 144; 138; 96; 6; 0; 6; 0; 32; 0; 0; 0;
                 0; 0; 0; 0; 0; 0; 0; 0; 68; 111; 109; 97; 105; 110]
  /\ is_ascii str_Domain /\ ~ is_ascii str_Dueren
  /\ made cfg_debug real_prims bare_env 2 str_User str_Dueren str_Password [] (bare_client real_prims 2 str_User str_Dueren str_Password)
  /\ replies cfg_debug real_prims host_env 2 str_User str_Domain str_Password sealed_challenge sample_entropy (sample_reply 2 sealed_challenge)
  /\ lmowfv1 real_prims str_Password = Val [229; 44; 172; 103; 65; 154; 154; 34; 74; 59; 16; 143; 63; 166; 203; 109] /\ workstation_name real_prims host_env (Some str_COMPUTER)
  /\ N.testbit (ch_flags sealed_challenge) 0 = true /\ N.testbit (ch_flags sealed_challenge) 25 = false
  /\ replies cfg_debug real_prims host_env 2 str_User str_Domain str_Password versioned_challenge sample_entropy
       (sample_reply 2 versioned_challenge)
  /\ N.testbit (ch_flags versioned_challenge) 25 = true.
Proof. exact C107_ex_lem. Qed.
Example C107_answer_ex :
  replies cfg_debug quiet_prims bare_env 3 str_User str_Domain str_Password sealed_challenge sample_entropy
    (bare_reply quiet_prims 3 sealed_challenge sample_entropy)
  /\ sub (bare_reply quiet_prims 3 sealed_challenge sample_entropy) 64 8 = zeros 8
  /\ workstation_name quiet_prims bare_env None
  /\ sub (sample_reply 3 sealed_challenge) 64 8 <> zeros 8.
Proof. exact C107_answer_ex_lem. Qed.
(** The exception exists. *)
Example C107_v2_never_ex :
  replies cfg_debug real_prims bare_env 3 str_User str_Domain str_Password posing_challenge posing_entropy
    (bare_reply real_prims 3 posing_challenge posing_entropy)
  /\ is_buffer 16 (firstn 16 (field_data (bare_reply real_prims 3 posing_challenge posing_entropy) 20))
  /\ field_data (bare_reply real_prims 3 posing_challenge posing_entropy) 20
     = v2_response (firstn 16 (field_data (bare_reply real_prims 3 posing_challenge posing_entropy) 20))
         (mkFileTime 0 786434) [65; 0; 66; 0; 67; 0; 68; 0] [].
Proof. exact C107_v2_never_ex_lem. Qed.
