(** Property theorems proved in [FactsInject.v]; generated by tools/gen.py. *)
From Verif Require Import Base Nom Unicode Wire Structures Prims Messages Crypto Client Spec SpecBuild SpecCrypto SpecClient SpecTrace Lib Encode Decode RoundTrip Parse Inject Samples FactsEncode FactsDecode FactsBuild DesKey RealPrims FactsCrypto SamplesClient History Reply FactsClient FactsReply FactsInject.

(** * C61: Encoding loses nothing *)
Theorem C61_encoders_injective : forall cfg,
  (forall n m b, valid_negotiate n -> valid_negotiate m ->
     serialize cfg (negotiate_ser n) = Val b -> serialize cfg (negotiate_ser m) = Val b -> n = m)
  /\ (forall c d b, valid_challenge c -> valid_challenge d ->
     serialize cfg (challenge_ser cfg c) = Val b -> serialize cfg (challenge_ser cfg d) = Val b -> c = d)
  /\ (forall a d b, valid_authenticate a -> valid_authenticate d ->
     serialize cfg (authenticate_ser cfg a) = Val b -> serialize cfg (authenticate_ser cfg d) = Val b ->
     same_lm (a_lm a) (a_lm d) /\ a_nt a = a_nt d /\ a_domain a = a_domain d /\ a_user a = a_user d
     /\ a_workstation a = a_workstation d /\ a_session_key a = a_session_key d
     /\ a_flags a = a_flags d /\ a_version a = a_version d /\ a_mic a = a_mic d).
Proof. exact C61_encoders_injective_lem. Qed.
Print Assumptions C61_encoders_injective.
Theorem C61_authenticate_injective_refuted :
  ~ (forall cfg a d b, valid_authenticate a -> valid_authenticate d ->
     serialize cfg (authenticate_ser cfg a) = Val b -> serialize cfg (authenticate_ser cfg d) = Val b -> a_lm a = a_lm d).
Proof. exact C61_authenticate_injective_refuted_lem. Qed.
Print Assumptions C61_authenticate_injective_refuted.
Theorem C61_parts_injective : forall cfg,
  (forall v w b, valid_version v -> valid_version w -> serialize cfg (version_ser v) = Val b -> serialize cfg (version_ser w) = Val b -> v = w)
  /\ (forall t u b, valid_filetime t -> valid_filetime u -> serialize cfg (filetime_ser t) = Val b -> serialize cfg (filetime_ser u) = Val b -> t = u)
  /\ (forall s t b, is_string s -> is_string t -> serialize cfg (unicode_ser s) = Val b -> serialize cfg (unicode_ser t) = Val b -> s = t)
  /\ (forall s t b, is_string s -> is_string t -> serialize cfg (oem_ser s) = Val b -> serialize cfg (oem_ser t) = Val b -> s = t)
  /\ (forall l m b, Forall valid_av_pair l -> Forall valid_av_pair m ->
        serialize cfg (ser_vec (av_pair_ser cfg) l) = Val b -> serialize cfg (ser_vec (av_pair_ser cfg) m) = Val b -> l = m).
Proof. exact C61_parts_injective_lem. Qed.
Print Assumptions C61_parts_injective.
Example C61_ex : valid_authenticate sample_authenticate
  /\ (exists b, serialize cfg_debug (authenticate_ser cfg_debug sample_authenticate) = Val b)
  /\ (exists b, serialize cfg_debug (challenge_ser cfg_debug sample_challenge) = Val b) /\ valid_challenge sample_challenge
  /\ (exists b, serialize cfg_debug (negotiate_ser sample_negotiate) = Val b) /\ valid_negotiate sample_negotiate.
Proof. exact C61_ex_lem. Qed.

(** * C64: Replies are fresh *)
Theorem C64_client_challenge_visible : forall cfg P e level user dom pw ch r b,
  replies cfg P e level user dom pw ch r b ->
  (3 <= level -> sub (field_data b 12) 16 8 = e_client_challenge r /\ sub (field_data b 20) 16 8 = e_client_challenge r)
  /\ (level <= 2 -> ESS (ch_flags ch) = true -> sub (field_data b 12) 0 8 = e_client_challenge r).
Proof. exact C64_client_challenge_visible_lem. Qed.
Print Assumptions C64_client_challenge_visible.
(** With extended session security (always at levels 3 to 5), replies made from
    different random numbers are different. *)
Theorem C64_replies_fresh : forall cfg P e level user dom pw ch r r' b,
  (3 <= level \/ ESS (ch_flags ch) = true) ->
  replies cfg P e level user dom pw ch r b -> replies cfg P e level user dom pw ch r' b ->
  e_client_challenge r = e_client_challenge r'
  /\ (key_exchange (ch_flags ch) = true -> e_session_key r = e_session_key r').
Proof. exact C64_replies_fresh_lem. Qed.
Print Assumptions C64_replies_fresh.
(** Without it the reply is a function of the challenge alone: it can be replayed. *)
Theorem C64_old_replies_repeat : forall cfg P e level user dom pw ch r r' b b', level <= 2 ->
  ESS (ch_flags ch) = false -> key_exchange (ch_flags ch) = false ->
  replies cfg P e level user dom pw ch r b -> replies cfg P e level user dom pw ch r' b' -> b = b'.
Proof. exact C64_old_replies_repeat_lem. Qed.
Print Assumptions C64_old_replies_repeat.
Theorem C64_replies_fresh_refuted :
  ~ (forall cfg P e level user dom pw ch r r' b,
      replies cfg P e level user dom pw ch r b -> replies cfg P e level user dom pw ch r' b ->
      e_client_challenge r = e_client_challenge r').
Proof. exact C64_replies_fresh_refuted_lem. Qed.
Print Assumptions C64_replies_fresh_refuted.
Example C64_ex :
  replies cfg_debug real_prims host_env 1 str_User str_Domain str_Password sealed_challenge sample_entropy (sample_reply 1 sealed_challenge)
  /\ ESS (ch_flags sealed_challenge) = true /\ key_exchange (ch_flags sealed_challenge) = true
  /\ replies cfg_debug real_prims host_env 3 str_User str_Domain str_Password old_challenge sample_entropy (sample_reply 3 old_challenge)
  /\ replies cfg_debug real_prims host_env 1 str_User str_Domain str_Password old_challenge sample_entropy (sample_reply 1 old_challenge)
  /\ ESS (ch_flags old_challenge) = false /\ key_exchange (ch_flags old_challenge) = false.
Proof. exact C64_ex_lem. Qed.

(** * C65: Replies identify the account *)
Theorem C65_accounts_told_apart : forall cfg P P' e e' level level' user user' dom dom' pw pw' ch ch' r r' b ws ws',
  replies cfg P e level user dom pw ch r b -> replies cfg P' e' level' user' dom' pw' ch' r' b ->
  workstation_name P e ws -> workstation_name P' e' ws' ->
  user = user' /\ dom = dom' /\ ws = ws' /\ (level <= 2 <-> level' <= 2).
Proof. exact C65_accounts_told_apart_lem. Qed.
Print Assumptions C65_accounts_told_apart.
Theorem C65_levels_told_apart_refuted :
  ~ (forall cfg P e level level' user dom pw ch r b,
      replies cfg P e level user dom pw ch r b -> replies cfg P e level' user dom pw ch r b -> level = level').
Proof. exact C65_levels_told_apart_refuted_lem. Qed.
Print Assumptions C65_levels_told_apart_refuted.
Example C65_ex :
  replies cfg_debug real_prims host_env 3 str_User str_Domain str_Password sealed_challenge sample_entropy (sample_reply 3 sealed_challenge)
  /\ workstation_name real_prims host_env (Some str_COMPUTER).
Proof. exact C65_ex_lem. Qed.

(** * C66: The reply is bound to the challenge *)
Theorem C66_challenge_bound : forall cfg P e level user dom pw ch ch' r r' b nb, 3 <= level -> host_le cfg = true ->
  replies cfg P e level user dom pw ch r b -> replies cfg P e level user dom pw ch' r' b ->
  key_exchange (ch_flags ch) = key_exchange (ch_flags ch') ->
  (exists target c, made cfg P e level user dom pw target c /\ answer cfg P c [] OpNegociate = OutBytes nb) ->
  ch = ch'
  \/ (let cc := e_client_challenge r in
      collision P (NTOWFv2 P pw user dom) (ch_server_challenge ch ++ cc) (ch_server_challenge ch' ++ cc))
  \/ exists K d, collision P K (nb ++ challenge_bytes cfg ch ++ d) (nb ++ challenge_bytes cfg ch' ++ d)
       /\ sub b 64 16 = p_hmac_md5 P K (nb ++ challenge_bytes cfg ch ++ d)
       /\ (forall o, In o [12; 20; 28; 36; 52] -> field_data d o = field_data b o)
       /\ field_data d 44 = [] /\ sub d 64 16 = zeros 16.
Proof. exact C66_challenge_bound_lem. Qed.
Print Assumptions C66_challenge_bound.
(** What is bound is the decoded challenge, not the bytes received. *)
Theorem C66_received_bytes_bound_refuted :
  ~ (forall cfg P e level user dom pw w w' ch ch' r r' b, 3 <= level -> host_le cfg = true -> is_bytes w -> is_bytes w' ->
      challenge_de cfg w = POk [] ch -> challenge_de cfg w' = POk [] ch' ->
      replies cfg P e level user dom pw ch r b -> replies cfg P e level user dom pw ch' r' b -> w = w').
Proof. exact C66_received_bytes_bound_refuted_lem. Qed.
Print Assumptions C66_received_bytes_bound_refuted.
Example C66_ex :
  replies cfg_debug real_prims host_env 3 str_User str_Domain str_Password sealed_challenge sample_entropy (sample_reply 3 sealed_challenge)
  /\ (exists target c, made cfg_debug real_prims host_env 3 str_User str_Domain str_Password target c
        /\ answer cfg_debug real_prims c [] OpNegociate
           = OutBytes (match answer cfg_debug real_prims (sample_client 3) [] OpNegociate with OutBytes b => b | _ => [] end)).
Proof. exact C66_ex_lem. Qed.
