(** Property theorems proved in [FactsHandshake.v]; generated by tools/gen.py. *)
From Verif Require Import Base Nom Unicode Wire Structures Prims Messages Crypto Client Spec SpecBuild SpecCrypto SpecClient SpecTrace SpecHandshake Lib Encode Decode RoundTrip Parse Samples FactsEncode FactsDecode FactsBuild DesKey RealPrims FactsCrypto SamplesClient History Reply FactsClient FactsReply FactsTrace FactsHandshake.

(** * C93: Every build is the same program *)
(** Builds for hosts of the same byte order encode every message alike, and
    panic on the same ones. *)
Theorem C93_encoders : forall cfg cfg', host_le cfg = host_le cfg' ->
  (forall n, valid_negotiate n -> serialize cfg (negotiate_ser n) = serialize cfg' (negotiate_ser n))
  /\ (forall c, valid_challenge c -> serialize cfg (challenge_ser cfg c) = serialize cfg' (challenge_ser cfg' c))
  /\ (forall a, valid_authenticate a -> serialize cfg (authenticate_ser cfg a) = serialize cfg' (authenticate_ser cfg' a)).
Proof. exact C93_encoders_lem. Qed.
Print Assumptions C93_encoders.
(** ... and so do clients: the same client is created, is in the same state
    after the same calls, and returns the same. *)
Theorem C93_client : forall cfg cfg' P e level user dom pw target c, host_le cfg = host_le cfg' ->
  made cfg P e level user dom pw target c ->
  made cfg' P e level user dom pw target c
  /\ (forall h, Forall typed_op h -> run cfg P c h = run cfg' P c h)
  /\ (forall h o, Forall typed_op h -> typed_op o -> same_out (answer cfg P c h o) (answer cfg' P c h o)).
Proof. exact C93_client_lem. Qed.
Print Assumptions C93_client.
(** The clients of a debug, a strict release and a Windows build. *)
Example C93_ex :
  made cfg_debug real_prims host_env 3 str_User str_Domain str_Password str_target (sample_client 3)
  /\ Forall typed_op (sample_history sealed_challenge) /\ typed_op (OpAuthenticate sample_entropy)
  /\ host_le cfg_debug = host_le (mkConfig false true true true)
  /\ answer (mkConfig false true true true) real_prims (sample_client 3) (sample_history sealed_challenge)
       (OpAuthenticate sample_entropy)
     = OutBytes (sample_reply 3 sealed_challenge).
Proof. exact C93_ex_lem. Qed.

(** * C94: A whole logon between client and server *)
(** Levels 3 to 5: whatever the client did before, and whichever builds the two
    run on little-endian hosts, the logon succeeds.  The server reads the names
    as they are (as far as text can be carried), accepts the LMv2 response
    with the password, and has the client's session key. *)
Theorem C94_logon : forall cc cs P e level user dom pw target c h ch r ws,
  host_le cc = true -> host_le cs = true ->
  made cc P e level user dom pw target c -> 3 <= level -> negotiable level dom -> workstation_name P e ws ->
  valid_challenge ch -> sendable_challenge cc ch -> sendable_challenge cs ch ->
  is_entropy r -> host_time cs (e_clock r) -> response_time ch r <> None ->
  len (utf16le user) <= 65535 -> len (utf16le dom) <= 65535 -> len (content (opt_map utf16le ws)) <= 65535 ->
  28 + len (av_list_bytes cs (ch_target_infos ch)) <= 65535 ->
  exists n a K, logon cc cs P c h ch r n a K
    /\ n_domain n = match dom with [] => None | _ => Some dom end
    /\ a_user a = seen_text (Some user) /\ a_domain a = seen_text (Some dom) /\ a_workstation a = seen_text ws
    /\ lmv2_good P (ch_server_challenge ch) user dom pw a
    /\ lmv2_key P cs ch user dom pw a = Some K.
Proof. exact C94_logon_lem. Qed.
Print Assumptions C94_logon.
(** Levels 0 to 2, if the server does not set the VERSION flag: the server
    accepts the NT response and has the session key (as the crate derives it,
    see C31). *)
Theorem C94_old_logon : forall cc cs P e level user dom pw target c h ch r ws,
  host_le cc = true -> host_le cs = true ->
  made cc P e level user dom pw target c -> level <= 2 -> negotiable level dom -> workstation_name P e ws ->
  valid_challenge ch -> sendable_challenge cc ch -> sendable_challenge cs ch -> N.testbit (ch_flags ch) 25 = false ->
  is_entropy r ->
  len (utf16le user) <= 65535 -> len (utf16le dom) <= 65535 -> len (content (opt_map utf16le ws)) <= 65535 ->
  exists n a K, logon cc cs P c h ch r n a K
    /\ n_domain n = match dom with [] => None | _ => Some dom end
    /\ a_user a = seen_text (Some user) /\ a_domain a = seen_text (Some dom) /\ a_workstation a = seen_text ws
    /\ nt1_good P ch pw a
    /\ nt1_key P ch pw a = Some K.
Proof. exact C94_old_logon_lem. Qed.
Print Assumptions C94_old_logon.
(** If it does, the server never reads a reply. *)
Theorem C94_version_flag : forall cc cs P e level user dom pw target c h ch r n a K,
  host_le cc = true -> host_le cs = true ->
  made cc P e level user dom pw target c -> level <= 2 ->
  valid_challenge ch -> sendable_challenge cc ch -> sendable_challenge cs ch -> N.testbit (ch_flags ch) 25 = true ->
  is_entropy r -> ~ logon cc cs P c h ch r n a K.
Proof. exact C94_version_flag_lem. Qed.
Print Assumptions C94_version_flag.
(** A debug client and a strict release server on Windows; the domain the server reads. *)
Example C94_ex :
  let cs := mkConfig false true true true in
  made cfg_debug real_prims host_env 3 str_User str_Domain str_Password str_target (sample_client 3)
  /\ negotiable 3 str_Domain /\ workstation_name real_prims host_env (Some str_COMPUTER)
  /\ valid_challenge sealed_challenge /\ sendable_challenge cfg_debug sealed_challenge /\ sendable_challenge cs sealed_challenge
  /\ is_entropy sample_entropy /\ host_time cs (e_clock sample_entropy) /\ response_time sealed_challenge sample_entropy <> None
  /\ 28 + len (av_list_bytes cs (ch_target_infos sealed_challenge)) <= 65535
  /\ seen_text (Some str_User) = Some str_User
  /\ N.testbit (ch_flags sealed_challenge) 25 = false /\ N.testbit (ch_flags versioned_challenge) 25 = true
  /\ sendable_challenge cs versioned_challenge.
Proof. exact C94_ex_lem. Qed.
