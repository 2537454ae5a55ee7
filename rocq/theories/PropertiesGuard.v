(** Property theorems proved in [FactsGuard.v]; generated by tools/gen.py. *)
From Verif Require Import Base Nom Unicode Wire Structures Prims Messages Crypto Client Spec SpecBuild SpecCrypto SpecClient SpecTrace Lib Encode Decode RoundTrip Parse Samples FactsEncode FactsDecode FactsBuild DesKey RealPrims FactsCrypto SamplesClient History Reply FactsClient FactsReply Trace FactsTrace FactsGuard.

(** * C88: A client insists on the protection it asked for *)
(** Levels 0 to 2: whether there is a reply does not depend on the challenge. *)
Theorem C88_any_challenge : forall cfg P e level user dom pw target c h h' ch ch' r r',
  made cfg P e level user dom pw target c -> level <= 2 -> negotiable level dom ->
  accepts h ch -> accepts h' ch' -> valid_challenge ch -> valid_challenge ch' -> is_entropy r -> is_entropy r' ->
  (exists b, answer cfg P c h (OpAuthenticate r) = OutBytes b) ->
  exists b, answer cfg P c h' (OpAuthenticate r') = OutBytes b.
Proof. exact C88_any_challenge_lem. Qed.
Print Assumptions C88_any_challenge.
(** All levels: it does not depend on the flags the server agrees to. *)
Theorem C88_any_flags : forall cfg P e level user dom pw target c h h' ch f r,
  made cfg P e level user dom pw target c -> negotiable level dom ->
  accepts h ch -> accepts h' (with_flags ch f) -> valid_challenge ch -> is_u32 f -> is_entropy r ->
  (exists b, answer cfg P c h (OpAuthenticate r) = OutBytes b) ->
  exists b, answer cfg P c h' (OpAuthenticate r) = OutBytes b.
Proof. exact C88_any_flags_lem. Qed.
Print Assumptions C88_any_flags.
(** A server, or whoever stands between, that drops EXTENDED_SESSIONSECURITY and chooses the challenge gets the
    plain response to it at levels 0 to 2: nothing of the client's own goes into it. *)
Theorem C88_plain_response : forall cfg P e level user dom pw ch r b klm, host_le cfg = true -> level <= 2 ->
  lmowfv1 P pw = Val klm -> replies cfg P e level user dom pw ch r b -> ESS (ch_flags ch) = false ->
  field_data b 20 = DESL P (NTOWFv1 P pw) (ch_server_challenge ch)
  /\ (1 <= level -> field_data b 12 = DESL P (NTOWFv1 P pw) (ch_server_challenge ch))
  /\ (level = 0 -> field_data b 12 = DESL P klm (ch_server_challenge ch)).
Proof. exact C88_plain_response_lem. Qed.
Print Assumptions C88_plain_response.
(** So with one chosen challenge one table of responses serves for all accounts, hosts, levels and times. *)
Theorem C88_same_response : forall cfg P e e' level level' user user' dom dom' pw ch ch' r r' b b',
  host_le cfg = true -> level <= 2 -> level' <= 2 ->
  replies cfg P e level user dom pw ch r b -> replies cfg P e' level' user' dom' pw ch' r' b' ->
  ESS (ch_flags ch) = false -> ESS (ch_flags ch') = false -> ch_server_challenge ch = ch_server_challenge ch' ->
  field_data b 20 = field_data b' 20.
Proof. exact C88_same_response_lem. Qed.
Print Assumptions C88_same_response.
(** At levels 3 to 5 the client challenge is part of what is authenticated, whatever the server agrees to. *)
Theorem C88_levels_3_to_5 : forall cfg P e level user dom pw ch r b, host_le cfg = true -> 3 <= level ->
  replies cfg P e level user dom pw ch r b ->
  field_data b 12 = p_hmac_md5 P (NTOWFv2 P pw user dom) (ch_server_challenge ch ++ e_client_challenge r) ++ e_client_challenge r.
Proof. exact C88_levels_3_to_5_lem. Qed.
Print Assumptions C88_levels_3_to_5.
Theorem C88_insists_refuted :
  ~ (forall cfg P e level user dom pw ch r b, In 19 (level_bits level) -> replies cfg P e level user dom pw ch r b ->
      ESS (ch_flags ch) = true).
Proof. exact C88_insists_refuted_lem. Qed.
Print Assumptions C88_insists_refuted.
Example C88_ex :
  replies cfg_debug real_prims host_env 2 str_User str_Domain str_Password old_challenge sample_entropy (sample_reply 2 old_challenge)
  /\ ESS (ch_flags old_challenge) = false /\ In 19 (level_bits 2)
  /\ made cfg_debug real_prims host_env 2 str_User str_Domain str_Password str_target (sample_client 2)
  /\ accepts (sample_history sealed_challenge) sealed_challenge
  /\ accepts (sample_history (with_flags sealed_challenge 1)) (with_flags sealed_challenge 1)
  /\ (exists b, answer cfg_debug real_prims (sample_client 2) (sample_history sealed_challenge) (OpAuthenticate sample_entropy) = OutBytes b).
Proof. exact C88_ex_lem. Qed.

(** * C89: Anonymous logon *)
(** Every reply carries responses of full length, whatever the account: none is anonymous. *)
Theorem C89_never_anonymous : forall cfg P e level user dom pw ch r b, replies cfg P e level user dom pw ch r b ->
  len (field_data b 12) = 24 /\ 24 <= len (field_data b 20)
  /\ (3 <= level -> N.testbit (u32_at b 60) 11 = false)
  /\ (level <= 2 -> N.testbit (u32_at b 60) 11 = N.testbit (ch_flags ch) 11).
Proof. exact C89_never_anonymous_lem. Qed.
Print Assumptions C89_never_anonymous.
(** MS-NLMP 3.1.5.1.2: a client without user name and password sends an empty NT response and a single zero byte. *)
Theorem C89_anonymous_refuted : ~ (forall cfg P e level dom ch r b, level <= 5 ->
  replies cfg P e level [] dom [] ch r b -> field_data b 20 = [] /\ field_data b 12 = [0]).
Proof. exact C89_anonymous_refuted_lem. Qed.
Print Assumptions C89_anonymous_refuted.
Example C89_ex : exists b, replies cfg_debug real_prims bare_env 4 [] [] [] sealed_challenge sample_entropy b /\ len (field_data b 20) = 150.
Proof. exact C89_ex_lem. Qed.
