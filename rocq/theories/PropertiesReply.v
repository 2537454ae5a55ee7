(** Property theorems proved in [FactsReply.v]; generated by tools/gen.py. *)
From Verif Require Import Base Nom Unicode Wire Structures Prims Messages Crypto Client Spec SpecBuild SpecCrypto SpecClient Lib Encode Decode RoundTrip Parse Samples FactsEncode FactsDecode FactsBuild DesKey RealPrims FactsCrypto SamplesClient History Reply FactsClient FactsReply.

(** * C27: NTLMv2 response contents *)
(** The fields of every reply at levels 3 to 5, at their offsets in the message. *)
Theorem C27_ntlmv2_response : forall cfg P e level user dom pw ws ch r b, host_le cfg = true -> 3 <= level ->
  workstation_name P e ws -> replies cfg P e level user dom pw ch r b ->
  exists t, response_time ch r = Some t
    /\ field_data b 12 = v2_lm_response P (NTOWFv2 P pw user dom) (ch_server_challenge ch) (e_client_challenge r)
    /\ field_data b 20 = [1; 1] ++ zeros 6 ++ filetime_bytes t ++ e_client_challenge r ++ zeros 4
                         ++ av_list_bytes cfg (ch_target_infos ch)
    /\ field_data b 28 = utf16le dom /\ field_data b 36 = utf16le user
    /\ field_data b 44 = content (opt_map utf16le ws).
Proof. exact C27_ntlmv2_response_lem. Qed.
Print Assumptions C27_ntlmv2_response.
(** Which time: the first timestamp of the target information, whatever
    follows it; without any, the clock. *)
Theorem C27_response_time : forall ch r,
  (forall l1 t l2, ch_target_infos ch = l1 ++ AvTimestamp t :: l2 -> Forall (fun a => timestamp_of a = None) l1 ->
     response_time ch r = Some t)
  /\ (Forall (fun a => timestamp_of a = None) (ch_target_infos ch) -> forall t,
     filetime_try_from (e_clock r) = inl t -> response_time ch r = Some t).
Proof. exact C27_response_time_lem. Qed.
Print Assumptions C27_response_time.
Example C27_ex :
  replies cfg_debug real_prims host_env 5 str_User str_Domain str_Password sealed_challenge sample_entropy
    (sample_reply 5 sealed_challenge)
  /\ workstation_name real_prims host_env (Some str_COMPUTER)
  /\ response_time sealed_challenge sample_entropy = Some (mkFileTime 4096 30000000)
  /\ len (field_data (sample_reply 5 sealed_challenge) 20) = 150
  /\ field_data (sample_reply 5 sealed_challenge) 12
     = [134; 195; 80; 151; 172; 156; 236; 16; 37; 84; 118; 74; 87; 204; 204; 25; 170; 170; 170; 170; 170; 170; 170; 170].
Proof. exact C27_ex_lem. Qed.

(** * C28: The NTLMv2 NT response starts with NTProofStr *)
(** What is sent is the second part only: never NTProofStr || temp, whatever
    the key and the server challenge. *)
Theorem C28_proof_missing : forall cfg P e level user dom pw ws ch r b, 3 <= level ->
  workstation_name P e ws -> replies cfg P e level user dom pw ch r b ->
  forall k sc t, response_time ch r = Some t ->
  field_data b 20 <> v2_nt_response P k sc (v2_temp cfg t (e_client_challenge r) (ch_target_infos ch))
  /\ field_data b 20 ++ zeros 4 = v2_temp cfg t (e_client_challenge r) (ch_target_infos ch).
Proof. exact C28_proof_missing_lem. Qed.
Print Assumptions C28_proof_missing.
(** The NT response is the same for every account and password: it proves nothing. *)
Theorem C28_password_irrelevant : forall cfg P P' e e' level level' user user' dom dom' pw pw' ch r b b',
  3 <= level -> 3 <= level' ->
  replies cfg P e level user dom pw ch r b -> replies cfg P' e' level' user' dom' pw' ch r b' ->
  field_data b 20 = field_data b' 20.
Proof. exact C28_password_irrelevant_lem. Qed.
Print Assumptions C28_password_irrelevant.
Theorem C28_nt_proof_refuted :
  ~ (forall cfg P e level user dom pw ch r b t, host_le cfg = true -> 3 <= level ->
      replies cfg P e level user dom pw ch r b -> response_time ch r = Some t ->
      field_data b 20 = v2_nt_response P (NTOWFv2 P pw user dom) (ch_server_challenge ch)
                          (v2_temp cfg t (e_client_challenge r) (ch_target_infos ch))).
Proof. exact C28_nt_proof_refuted_lem. Qed.
Print Assumptions C28_nt_proof_refuted.
Example C28_ex : replies cfg_debug real_prims host_env 3 str_User str_Domain str_Password sealed_challenge sample_entropy
    (sample_reply 3 sealed_challenge)
  /\ exists b', replies cfg_debug real_prims bare_env 4 str_Server [] [] sealed_challenge sample_entropy b'.
Proof. exact C28_ex_lem. Qed.

(** * C29: The MIC covers the message sent *)
(** The MIC sent is that of another message: with other flags, and without the workstation. *)
Theorem C29_mic_of_other_message : forall cfg P e level user dom pw target c h ch r b K nb,
  made cfg P e level user dom pw target c -> 3 <= level ->
  concludes cfg P c h ch r b K -> answer cfg P c h OpNegociate = OutBytes nb ->
  exists d, sub b 64 16 = p_hmac_md5 P K (nb ++ challenge_bytes cfg ch ++ d)
    /\ d <> zero_mic b
    /\ u32_at d 60 = 1073741825 /\ u32_at (zero_mic b) 60 = 1082130437
    /\ (forall o, In o [12; 20; 28; 36; 52] -> field_data d o = field_data b o)
    /\ field_data d 44 = [] /\ sub d 64 16 = zeros 16.
Proof. exact C29_mic_of_other_message_lem. Qed.
Print Assumptions C29_mic_of_other_message.
(** [compute_mic] on any message, and again on its own result: the MIC that
    was there does not matter, and nothing else changes. *)
Theorem C29_compute_mic : forall cfg P a n c key, valid_authenticate a -> valid_negotiate n -> valid_challenge c ->
  a_exported_key a = Some key ->
  (forall a', compute_mic cfg P a n c = Val a' <->
     fits (negotiate_fields n) /\ fits (challenge_fields cfg c) /\ fits (authenticate_fields cfg a)
     /\ a_mic a' = p_hmac_md5 P key (negotiate_bytes n ++ challenge_bytes cfg c ++ authenticate_bytes cfg (without_mic a))
     /\ without_mic a' = without_mic a)
  /\ (forall a', compute_mic cfg P a n c = Val a' -> compute_mic cfg P a' n c = Val a').
Proof. exact C29_compute_mic_lem. Qed.
Print Assumptions C29_compute_mic.
Example C29_compute_mic_ex : exists n, valid_authenticate (with_exported_key sample_authenticate (Some (repeat 7 16))) /\ valid_negotiate n /\ valid_challenge sample_challenge
  /\ a_exported_key (with_exported_key sample_authenticate (Some (repeat 7 16))) = Some (repeat 7 16)
  /\ exists a', compute_mic cfg_debug real_prims (with_exported_key sample_authenticate (Some (repeat 7 16))) n sample_challenge = Val a'.
Proof. exact C29_compute_mic_ex_lem. Qed.
(** At levels 0 to 2 no MIC is computed: its place holds zeros. *)
Theorem C29_no_mic_below_3 : forall cfg P e level user dom pw ch r b, level <= 2 ->
  replies cfg P e level user dom pw ch r b -> sub b 64 16 = zeros 16.
Proof. exact C29_no_mic_below_3_lem. Qed.
Print Assumptions C29_no_mic_below_3.
Theorem C29_mic_refuted :
  ~ (forall cfg P e level user dom pw target c h ch r b K nb,
      made cfg P e level user dom pw target c -> 3 <= level ->
      concludes cfg P c h ch r b K -> answer cfg P c h OpNegociate = OutBytes nb ->
      sub b 64 16 = p_hmac_md5 P K (nb ++ challenge_bytes cfg ch ++ zero_mic b)).
Proof. exact C29_mic_refuted_lem. Qed.
Print Assumptions C29_mic_refuted.
Example C29_ex : concludes cfg_debug real_prims (sample_client 3) (sample_history sealed_challenge) sealed_challenge sample_entropy
    (sample_reply 3 sealed_challenge) (repeat 85 16)
  /\ (exists nb, answer cfg_debug real_prims (sample_client 3) (sample_history sealed_challenge) OpNegociate = OutBytes nb)
  /\ replies cfg_debug real_prims host_env 1 str_User str_Domain str_Password old_challenge sample_entropy (sample_reply 1 old_challenge).
Proof. exact C29_ex_lem. Qed.

(** * C30: The server can recover the session key *)
(** Levels 0 to 2: with key exchange, the key sent decrypts to the key kept,
    which is the random one drawn, under the key
    HMAC(session base key, server challenge || first 8 bytes of the LM response);
    with EXTENDED_SESSIONSECURITY that is the key exchange key of MS-NLMP. *)
Theorem C30_session_key_ntlmv1 : forall cfg P e level user dom pw target c h ch r b K klm,
  made cfg P e level user dom pw target c -> level <= 2 -> host_le cfg = true ->
  lmowfv1 P pw = Val klm -> concludes cfg P c h ch r b K -> key_exchange (ch_flags ch) = true ->
  let sbk := v1_session_base_key P (NTOWFv1 P pw) in
  N.testbit (u32_at b 60) 30 = true
  /\ K = e_session_key r
  /\ RC4K P (p_hmac_md5 P sbk (ch_server_challenge ch ++ sub (field_data b 12) 0 8)) (field_data b 52) = K
  /\ (ESS (ch_flags ch) = true ->
      RC4K P (KXKEY P (ch_flags ch) sbk (field_data b 12) (ch_server_challenge ch) klm) (field_data b 52) = K).
Proof. exact C30_session_key_ntlmv1_lem. Qed.
Print Assumptions C30_session_key_ntlmv1.
(** Levels 3 to 5: the server, which knows NTOWFv2, its challenge and the
    client challenge structure in the message, recovers the key. *)
Theorem C30_session_key_ntlmv2 : forall cfg P e level user dom pw target c h ch r b K,
  made cfg P e level user dom pw target c -> 3 <= level -> host_le cfg = true ->
  concludes cfg P c h ch r b K -> key_exchange (ch_flags ch) = true ->
  N.testbit (u32_at b 60) 30 = true
  /\ K = e_session_key r
  /\ RC4K P (v2_session_base_key P (NTOWFv2 P pw user dom) (ch_server_challenge ch) (field_data b 20 ++ zeros 4))
       (field_data b 52) = K.
Proof. exact C30_session_key_ntlmv2_lem. Qed.
Print Assumptions C30_session_key_ntlmv2.
(** Without key exchange the reply still has KEY_EXCH set, and an encrypted key of zeros. *)
Theorem C30_without_key_exchange : forall cfg P e level user dom pw ch r b,
  replies cfg P e level user dom pw ch r b -> key_exchange (ch_flags ch) = false ->
  N.testbit (u32_at b 60) 30 = true /\ field_data b 52 = zeros 16.
Proof. exact C30_without_key_exchange_lem. Qed.
Print Assumptions C30_without_key_exchange.
Theorem C30_session_key_refuted :
  ~ (forall cfg P e level user dom pw target c h ch r b K,
      made cfg P e level user dom pw target c -> 3 <= level -> host_le cfg = true ->
      concludes cfg P c h ch r b K -> N.testbit (u32_at b 60) 30 = true ->
      RC4K P (v2_session_base_key P (NTOWFv2 P pw user dom) (ch_server_challenge ch) (field_data b 20 ++ zeros 4))
        (field_data b 52) = K).
Proof. exact C30_session_key_refuted_lem. Qed.
Print Assumptions C30_session_key_refuted.
Example C30_ex : key_exchange (ch_flags sealed_challenge) = true /\ ESS (ch_flags sealed_challenge) = true
  /\ key_exchange (ch_flags sample_challenge) = false
  /\ concludes cfg_debug real_prims (sample_client 2) (sample_history sealed_challenge) sealed_challenge sample_entropy
       (sample_reply 2 sealed_challenge) (repeat 85 16)
  /\ concludes cfg_debug real_prims (sample_client 3) (sample_history sealed_challenge) sealed_challenge sample_entropy
       (sample_reply 3 sealed_challenge) (repeat 85 16)
  /\ replies cfg_debug real_prims host_env 3 str_User str_Domain str_Password sample_challenge sample_entropy (sample_reply 3 sample_challenge).
Proof. exact C30_ex_lem. Qed.
(** The session key function, also with a given key: with KEY_EXCH and SIGN or
    SEAL the exported key is the given one, or else the drawn one, and its RC4
    under the key exchange key is sent, from which it is recovered; otherwise
    the key exchange key is exported and 16 zero bytes are sent. *)
Theorem C30_encrypt_session_key : forall P f kek given drawn,
  prims_ok P -> exists exported sent, encrypt_random_session_key P f kek given drawn = (exported, sent)
  /\ (key_exchange f = true ->
      (forall k, given = Some k -> exported = k) /\ (given = None -> exported = drawn)
      /\ sent = RC4K P kek exported /\ RC4K P kek sent = exported)
  /\ (key_exchange f = false -> exported = kek /\ sent = zeros 16).
Proof. exact C30_encrypt_session_key_lem. Qed.
Print Assumptions C30_encrypt_session_key.
(** MS-NLMP 4.2.2.2.3: the given key 55...55. *)
Example C30_encrypt_session_key_ex :
  encrypt_random_session_key real_prims (2 ^ 30 + 2 ^ 4) (repeat 85 16) (Some (repeat 85 16)) (repeat 1 16)
  = (repeat 85 16, RC4K real_prims (repeat 85 16) (repeat 85 16))
  /\ key_exchange (2 ^ 30 + 2 ^ 4) = true /\ key_exchange (2 ^ 30) = false.
Proof. exact C30_encrypt_session_key_ex_lem. Qed.

(** * C31: Key exchange key follows MS-NLMP *)
(** The session key kept at levels 0 to 2 when no key is exchanged: always the
    HMAC that MS-NLMP 3.4.5.1 prescribes for EXTENDED_SESSIONSECURITY, and so
    right with that flag. *)
Theorem C31_key_exchange_key : forall cfg P e level user dom pw target c h ch r b K klm,
  made cfg P e level user dom pw target c -> level <= 2 -> host_le cfg = true ->
  lmowfv1 P pw = Val klm -> concludes cfg P c h ch r b K -> key_exchange (ch_flags ch) = false ->
  let sbk := v1_session_base_key P (NTOWFv1 P pw) in
  K = p_hmac_md5 P sbk (ch_server_challenge ch ++ sub (field_data b 12) 0 8)
  /\ (ESS (ch_flags ch) = true -> K = KXKEY P (ch_flags ch) sbk (field_data b 12) (ch_server_challenge ch) klm).
Proof. exact C31_key_exchange_key_lem. Qed.
Print Assumptions C31_key_exchange_key.
Theorem C31_key_exchange_key_refuted :
  ~ (forall cfg P e level user dom pw target c h ch r b K klm,
      made cfg P e level user dom pw target c -> level <= 2 -> host_le cfg = true ->
      lmowfv1 P pw = Val klm -> concludes cfg P c h ch r b K -> key_exchange (ch_flags ch) = false ->
      K = KXKEY P (ch_flags ch) (v1_session_base_key P (NTOWFv1 P pw)) (field_data b 12) (ch_server_challenge ch) klm).
Proof. exact C31_key_exchange_key_refuted_lem. Qed.
Print Assumptions C31_key_exchange_key_refuted.
(** MS-NLMP 4.2.3.1.2 *)
Example C31_ex : key_exchange (ch_flags sample_challenge) = false /\ ESS (ch_flags sample_challenge) = true
  /\ lmowfv1 real_prims str_Password = Val (LMOWFv1 real_prims str_Password)
  /\ concludes cfg_debug real_prims (sample_client 1) (sample_history sample_challenge) sample_challenge sample_entropy
       (sample_reply 1 sample_challenge) [235; 147; 66; 154; 139; 217; 82; 248; 184; 156; 85; 184; 127; 71; 94; 220].
Proof. exact C31_ex_lem. Qed.

(** * C32: NTLMv1 responses follow MS-NLMP *)
(** The responses in every reply at levels 0 to 2; at levels 1 and 2 the LM
    response repeats the NT response (NoLMResponseNTLMv1). *)
Theorem C32_ntlmv1_response : forall cfg P e level user dom pw ws ch r b klm, host_le cfg = true -> level <= 2 ->
  workstation_name P e ws -> lmowfv1 P pw = Val klm -> replies cfg P e level user dom pw ch r b ->
  field_data b 12 = v1_lm_response P (ch_flags ch) (NTOWFv1 P pw) klm (ch_server_challenge ch)
                      (e_client_challenge r) (1 <=? level)
  /\ field_data b 20 = v1_nt_response P (ch_flags ch) (NTOWFv1 P pw) (ch_server_challenge ch) (e_client_challenge r)
  /\ field_data b 28 = utf16le dom /\ field_data b 36 = utf16le user
  /\ field_data b 44 = content (opt_map utf16le ws).
Proof. exact C32_ntlmv1_response_lem. Qed.
Print Assumptions C32_ntlmv1_response.
(** MS-NLMP 4.2.2: no EXTENDED_SESSIONSECURITY, "User" and "Password" *)
Example C32_ex :
  replies cfg_debug real_prims host_env 0 str_User str_Domain str_Password old_challenge sample_entropy (sample_reply 0 old_challenge)
  /\ field_data (sample_reply 0 old_challenge) 12
     = [152; 222; 247; 184; 127; 136; 170; 93; 175; 226; 223; 119; 150; 136; 161; 114; 222; 241; 28; 125; 92; 205; 239; 19]
  /\ field_data (sample_reply 1 old_challenge) 12 = field_data (sample_reply 0 old_challenge) 20
  /\ field_data (sample_reply 2 sample_challenge) 20
     = [117; 55; 248; 3; 174; 54; 113; 40; 202; 69; 130; 4; 189; 231; 202; 248; 30; 151; 237; 38; 131; 38; 114; 50].
Proof. exact C32_ex_lem. Qed.

(** * C42: The client's AUTHENTICATE can be decoded *)
(** Levels 3 to 5, for every challenge that came over the wire: the bytes
    decode to the message meant; names are seen as far as UTF-16 without
    surrogates carries them, and empty ones are seen as absent. *)
Theorem C42_reply_decodes : forall cfg P e level user dom pw ws w rest ch r b,
  host_le cfg = true -> 3 <= level -> workstation_name P e ws ->
  is_bytes w -> challenge_de cfg w = POk rest ch -> host_time cfg (e_clock r) ->
  replies cfg P e level user dom pw ch r b ->
  exists t a, authenticate_de cfg b = POk [] a /\ response_time ch r = Some t
    /\ a_lm a = Some (LmV2 (p_hmac_md5 P (NTOWFv2 P pw user dom) (ch_server_challenge ch ++ e_client_challenge r))
                           (e_client_challenge r))
    /\ a_nt a = Some (NtV2 (mkNtv2 t (e_client_challenge r) (ch_target_infos ch)))
    /\ a_domain a = seen_text (Some dom) /\ a_user a = seen_text (Some user) /\ a_workstation a = seen_text ws
    /\ a_session_key a = Some (field_data b 52) /\ a_version a = None /\ a_mic a = sub b 64 16
    /\ (forall i, N.testbit (a_flags a) i = existsb (N.eqb i) [0; 2; 23; 30]).
Proof. exact C42_reply_decodes_lem. Qed.
Print Assumptions C42_reply_decodes.
(** Levels 0 to 2, if the server did not set the VERSION flag. *)
Theorem C42_old_reply_decodes : forall cfg P e level user dom pw ws ch r b,
  host_le cfg = true -> level <= 2 -> workstation_name P e ws ->
  replies cfg P e level user dom pw ch r b -> N.testbit (ch_flags ch) 25 = false ->
  exists a, authenticate_de cfg b = POk [] a
    /\ a_lm a = Some (if N.testbit (ch_flags ch) 9 then LmV1 (field_data b 12)
                      else LmV2 (firstn 16 (field_data b 12)) (skipn 16 (field_data b 12)))
    /\ a_nt a = Some (NtV1 (field_data b 20))
    /\ a_domain a = seen_text (Some dom) /\ a_user a = seen_text (Some user) /\ a_workstation a = seen_text ws
    /\ a_session_key a = Some (field_data b 52) /\ a_version a = None /\ a_mic a = zeros 16
    /\ (forall i, N.testbit (a_flags a) i
          = if existsb (N.eqb i) [2; 23; 30] then true
            else if existsb (N.eqb i) [1; 17] then false else N.testbit (ch_flags ch) i).
Proof. exact C42_old_reply_decodes_lem. Qed.
Print Assumptions C42_old_reply_decodes.
(** If it did, the client copies the flag without sending a version: no reply can be decoded. *)
Theorem C42_version_flag_breaks : forall cfg P e level user dom pw ch r b, level <= 2 ->
  replies cfg P e level user dom pw ch r b -> N.testbit (ch_flags ch) 25 = true ->
  authenticate_de cfg b = PErr EError.
Proof. exact C42_version_flag_breaks_lem. Qed.
Print Assumptions C42_version_flag_breaks.
Theorem C42_reply_decodes_refuted :
  ~ (forall cfg P e level user dom pw ch r b, host_le cfg = true ->
      replies cfg P e level user dom pw ch r b -> exists a, authenticate_de cfg b = POk [] a).
Proof. exact C42_reply_decodes_refuted_lem. Qed.
Print Assumptions C42_reply_decodes_refuted.
Example C42_ex : is_bytes (challenge_bytes cfg_debug sealed_challenge)
  /\ challenge_de cfg_debug (challenge_bytes cfg_debug sealed_challenge) = POk [] sealed_challenge
  /\ host_time cfg_debug (e_clock sample_entropy)
  /\ replies cfg_debug real_prims host_env 4 str_User str_Domain str_Password sealed_challenge sample_entropy (sample_reply 4 sealed_challenge)
  /\ replies cfg_debug real_prims host_env 1 str_User str_Domain str_Password old_challenge sample_entropy (sample_reply 1 old_challenge)
  /\ N.testbit (ch_flags old_challenge) 25 = false /\ N.testbit (ch_flags versioned_challenge) 25 = true.
Proof. exact C42_ex_lem. Qed.
