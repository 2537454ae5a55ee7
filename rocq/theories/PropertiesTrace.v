(** Property theorems proved in [FactsTrace.v]; generated by tools/gen.py. *)
From Verif Require Import Base Nom Unicode Wire Structures Prims Messages Crypto Client Spec SpecBuild SpecCrypto SpecClient SpecTrace Lib Encode Decode RoundTrip Parse Samples FactsEncode FactsDecode FactsBuild DesKey RealPrims FactsCrypto SamplesClient History Reply FactsClient FactsReply Trace FactsTrace.

(** * C57: The reply agrees only to what was offered and requested *)
Theorem C57_reply_flags : forall cfg P e level user dom pw ch r b,
  replies cfg P e level user dom pw ch r b ->
  (3 <= level -> forall i, N.testbit (u32_at b 60) i = existsb (N.eqb i) [0; 2; 23; 30])
  /\ (level <= 2 -> forall i, N.testbit (u32_at b 60) i =
        if existsb (N.eqb i) [2; 23; 30] then true
        else if existsb (N.eqb i) [1; 17] then false else N.testbit (ch_flags ch) i).
Proof. exact C57_reply_flags_lem. Qed.
Print Assumptions C57_reply_flags.
Theorem C57_agrees_to_offered : forall cfg P e level user dom pw ch r b i, 3 <= level ->
  replies cfg P e level user dom pw ch r b ->
  N.testbit (u32_at b 60) i = true -> In i (level_bits level).
Proof. exact C57_agrees_to_offered_lem. Qed.
Print Assumptions C57_agrees_to_offered.
Theorem C57_agrees_to_offered_refuted :
  ~ (forall cfg P e level user dom pw ch r b i, replies cfg P e level user dom pw ch r b ->
      N.testbit (u32_at b 60) i = true -> In i (level_bits level)).
Proof. exact C57_agrees_to_offered_refuted_lem. Qed.
Print Assumptions C57_agrees_to_offered_refuted.
Theorem C57_agrees_to_server_refuted :
  ~ (forall cfg P e level user dom pw ch r b, 3 <= level -> replies cfg P e level user dom pw ch r b ->
      N.testbit (u32_at b 60) 30 = true -> N.testbit (ch_flags ch) 30 = true).
Proof. exact C57_agrees_to_server_refuted_lem. Qed.
Print Assumptions C57_agrees_to_server_refuted.
Example C57_ex :
  replies cfg_debug real_prims host_env 3 str_User str_Domain str_Password sealed_challenge sample_entropy (sample_reply 3 sealed_challenge)
  /\ replies cfg_debug real_prims host_env 0 str_User str_Domain str_Password sealed_challenge sample_entropy (sample_reply 0 sealed_challenge)
  /\ u32_at (sample_reply 3 sealed_challenge) 60 = 1082130437
  /\ u32_at (sample_reply 0 sealed_challenge) 60 = N.lor (N.clearbit (ch_flags sealed_challenge) 17) 4.
Proof. exact C57_ex_lem. Qed.

(** * C58: What cannot be observed *)
Theorem C58_target_irrelevant : forall cfg P e level user dom pw target target' c c',
  made cfg P e level user dom pw target c -> made cfg P e level user dom pw target' c' -> alike cfg P c c'.
Proof. exact C58_target_irrelevant_lem. Qed.
Print Assumptions C58_target_irrelevant.
Theorem C58_negotiate_reveals_no_user : forall cfg P P' e e' level user user' dom pw pw' target target' c c' h h',
  made cfg P e level user dom pw target c -> made cfg P' e' level user' dom pw' target' c' ->
  answer cfg P c h OpNegociate = answer cfg P' c' h' OpNegociate.
Proof. exact C58_negotiate_reveals_no_user_lem. Qed.
Print Assumptions C58_negotiate_reveals_no_user.
(** The user name is not hidden from whoever sees the reply. *)
Theorem C58_reply_reveals_user : forall cfg P e level user dom pw ch r b,
  replies cfg P e level user dom pw ch r b -> field_data b 36 = utf16le user /\ field_data b 28 = utf16le dom.
Proof. exact C58_reply_reveals_user_lem. Qed.
Print Assumptions C58_reply_reveals_user.
Example C58_ex :
  made cfg_debug real_prims host_env 3 str_User str_Domain str_Password str_target (sample_client 3)
  /\ made cfg_debug real_prims bare_env 3 str_Server str_Domain [] [] (bare_client real_prims 3 str_Server str_Domain [])
  /\ answer cfg_debug real_prims (bare_client real_prims 3 str_Server str_Domain []) [] OpNegociate
     = answer cfg_debug real_prims (sample_client 3) [] OpNegociate
  /\ transcript cfg_debug real_prims (sample_client 3) (sample_history sealed_challenge ++ [OpAuthenticate sample_entropy])
     = [OutPanic PUnreachable; OutUnit; answer cfg_debug real_prims (sample_client 3) [] OpNegociate; OutUnit;
        answer cfg_debug real_prims (sample_client 3) [] OpNegociate; OutPanic PUnreachable; OutUnit; OutUnit;
        OutBytes (sample_reply 3 sealed_challenge)].
Proof. exact C58_ex_lem. Qed.

(** * C59: The session key kept *)
Theorem C59_key_kept : forall cfg P c h h' K, session_key (run cfg P c h) = Some K ->
  Forall (fun o => ~ is_negociate o) h' -> session_key (run cfg P c (h ++ h')) = Some K.
Proof. exact C59_key_kept_lem. Qed.
Print Assumptions C59_key_kept.
Theorem C59_key_discarded : forall cfg P e level user dom pw target c h h',
  made cfg P e level user dom pw target c -> negotiable level dom ->
  Forall (fun o => match o with OpAuthenticate _ => False | _ => True end) h' ->
  session_key (run cfg P c (h ++ OpNegociate :: h')) = None.
Proof. exact C59_key_discarded_lem. Qed.
Print Assumptions C59_key_discarded.
Theorem C59_key_of_last_message_refuted :
  ~ (forall cfg P e level user dom pw target c h ch r b,
      made cfg P e level user dom pw target c -> accepts h ch -> valid_challenge ch -> is_entropy r ->
      key_exchange (ch_flags ch) = true -> answer cfg P c h (OpAuthenticate r) = OutBytes b ->
      session_key (run cfg P c (h ++ [OpAuthenticate r])) = Some (e_session_key r)).
Proof. exact C59_key_of_last_message_refuted_lem. Qed.
Print Assumptions C59_key_of_last_message_refuted.
Example C59_ex :
  session_key (run cfg_debug real_prims (sample_client 3) (sample_history sealed_challenge ++ [OpAuthenticate sample_entropy]))
    = Some (repeat 85 16)
  /\ session_key (run cfg_debug real_prims (sample_client 3)
       (sample_history sealed_challenge ++ [OpAuthenticate sample_entropy; OpNegociate])) = None
  /\ negotiable 3 str_Domain.
Proof. exact C59_ex_lem. Qed.

(** * C60: Levels that behave the same *)
Theorem C60_levels_3_to_5 : forall cfg P e level level' user dom pw target target' c c',
  3 <= level <= 5 -> 3 <= level' <= 5 ->
  made cfg P e level user dom pw target c -> made cfg P e level' user dom pw target' c' -> alike cfg P c c'.
Proof. exact C60_levels_3_to_5_lem. Qed.
Print Assumptions C60_levels_3_to_5.
Theorem C60_levels_1_and_2 : forall cfg P e user dom pw target target' c c' h h' ch r,
  made cfg P e 1 user dom pw target c -> made cfg P e 2 user dom pw target' c' ->
  accepts h ch -> accepts h' ch -> negotiable 1 dom ->
  answer cfg P c h (OpAuthenticate r) = answer cfg P c' h' (OpAuthenticate r).
Proof. exact C60_levels_1_and_2_lem. Qed.
Print Assumptions C60_levels_1_and_2.
Theorem C60_levels_1_and_2_refuted :
  ~ (forall cfg P e user dom pw target c c',
      made cfg P e 1 user dom pw target c -> made cfg P e 2 user dom pw target c' -> alike cfg P c c').
Proof. exact C60_levels_1_and_2_refuted_lem. Qed.
Print Assumptions C60_levels_1_and_2_refuted.
Example C60_ex :
  made cfg_debug real_prims host_env 3 str_User str_Domain str_Password str_target (sample_client 3)
  /\ made cfg_debug real_prims host_env 5 str_User str_Domain str_Password str_target (sample_client 5)
  /\ sample_client 3 <> sample_client 5
  /\ answer cfg_debug real_prims (sample_client 1) (sample_history sealed_challenge) (OpAuthenticate sample_entropy)
     = OutBytes (sample_reply 2 sealed_challenge).
Proof. exact C60_ex_lem. Qed.

(** * C62: The NT hash replaces the password *)
Theorem C62_nt_hash_suffices : forall cfg P e e' level user dom pw pw' target target' c c' ws, 1 <= level ->
  made cfg P e level user dom pw target c -> made cfg P e' level user dom pw' target' c' ->
  workstation_name P e ws -> workstation_name P e' ws ->
  ntowfv1 cfg P pw = ntowfv1 cfg P pw' -> alike cfg P c c'.
Proof. exact C62_nt_hash_suffices_lem. Qed.
Print Assumptions C62_nt_hash_suffices.
(** At level 0 the LM hash counts too: shown for primitives whose MD4 is constant
    (they satisfy the contract of the primitives). *)
Theorem C62_nt_hash_suffices_refuted :
  ~ (forall cfg P e level user dom pw pw' target c c',
      made cfg P e level user dom pw target c -> made cfg P e level user dom pw' target c' ->
      ntowfv1 cfg P pw = ntowfv1 cfg P pw' -> alike cfg P c c').
Proof. exact C62_nt_hash_suffices_refuted_lem. Qed.
Print Assumptions C62_nt_hash_suffices_refuted.
Example C62_ex :
  made cfg_debug blunt_prims bare_env 2 str_User str_Domain str_Password [] (bare_client blunt_prims 2 str_User str_Domain str_Password)
  /\ workstation_name blunt_prims bare_env None
  /\ ntowfv1 cfg_debug blunt_prims str_Password = ntowfv1 cfg_debug blunt_prims str_User
  /\ lmowfv1 blunt_prims str_Password <> lmowfv1 blunt_prims str_User.
Proof. exact C62_ex_lem. Qed.
