(** Property theorems proved in [FactsClient.v]; generated by tools/gen.py. *)
From Verif Require Import Base Nom Unicode Wire Structures Prims Messages Crypto Client Spec SpecBuild SpecCrypto SpecClient Lib Encode Decode RoundTrip Parse Samples FactsEncode FactsDecode FactsBuild DesKey RealPrims FactsCrypto SamplesClient History Reply FactsClient.

(** * C23: Client handshake order *)
(** Whatever happened before and whatever other challenges were offered, the
    reply is the one of the plain handshake with the accepted challenge. *)
Theorem C23_accepted_challenge_counts : forall cfg P e level user dom pw target c h ch r,
  made cfg P e level user dom pw target c -> negotiable level dom -> accepts h ch ->
  answer cfg P c h (OpAuthenticate r) = answer cfg P c [OpNegociate; OpRecvChallenge ch] (OpAuthenticate r).
Proof. exact C23_accepted_challenge_counts_lem. Qed.
Print Assumptions C23_accepted_challenge_counts.
(** At most one challenge is accepted at a time; without one there is no reply. *)
Theorem C23_no_other_challenge : forall cfg P e level user dom pw target c h r,
  made cfg P e level user dom pw target c ->
  (forall ch ch', accepts h ch -> accepts h ch' -> ch' = ch)
  /\ ((forall ch, ~ accepts h ch) -> exists w, answer cfg P c h (OpAuthenticate r) = OutPanic w).
Proof. exact C23_no_other_challenge_lem. Qed.
Print Assumptions C23_no_other_challenge.
(** Which challenge is accepted: one that comes while the last negotiate call
    is unanswered; a negotiate call always restarts. *)
Theorem C23_acceptance : forall h,
  (forall ch, ~ accepts [] ch)
  /\ (forall ch, ~ accepts (h ++ [OpNegociate]) ch)
  /\ (forall ch r, accepts (h ++ [OpAuthenticate r]) ch <-> accepts h ch)
  /\ (forall ch ch', accepts (h ++ [OpRecvChallenge ch']) ch
        <-> accepts h ch \/ (awaiting h /\ ch' = ch))
  /\ (awaiting h -> forall ch, ~ accepts h ch).
Proof. exact C23_acceptance_lem. Qed.
Print Assumptions C23_acceptance.
(** The protocol state after any history. *)
Theorem C23_protocol_state : forall cfg P e level user dom pw target c,
  made cfg P e level user dom pw target c -> negotiable level dom ->
  exists n, answer cfg P c [] OpNegociate = OutBytes (negotiate_bytes n) /\ forall h,
    (untouched h -> cl_state (run cfg P c h) = StNew)
    /\ (awaiting h -> cl_state (run cfg P c h) = StNegotiateSent n)
    /\ (forall ch, accepts h ch -> cl_state (run cfg P c h) = StChallengeReceived n ch
                                   \/ exists a, cl_state (run cfg P c h) = StAuthenticateSent n ch a)
    /\ (untouched h \/ awaiting h \/ exists ch, accepts h ch).
Proof. exact C23_protocol_state_lem. Qed.
Print Assumptions C23_protocol_state.
(** Offering a challenge never fails. *)
Theorem C23_recv_challenge_never_panics : forall cfg P c h ch,
  answer cfg P c h (OpRecvChallenge ch) = OutUnit.
Proof. exact C23_recv_challenge_never_panics_lem. Qed.
Print Assumptions C23_recv_challenge_never_panics.
Example C23_ex : made cfg_debug real_prims host_env 3 str_User str_Domain str_Password str_target (sample_client 3)
  /\ negotiable 3 str_Domain /\ accepts (sample_history sealed_challenge) sealed_challenge
  /\ answer cfg_debug real_prims (sample_client 3) (sample_history sealed_challenge) (OpAuthenticate sample_entropy)
     = OutBytes (sample_reply 3 sealed_challenge)
  /\ len (sample_reply 3 sealed_challenge) = 306.
Proof. exact C23_ex_lem. Qed.

(** * C24: send_authenticate panics exactly without an accepted challenge *)
(** Exactly when [send_authenticate] panics, after any history of calls with
    well-formed challenges. *)
Theorem C24_panics_exactly : forall cfg P e level user dom pw target c h r ws,
  made cfg P e level user dom pw target c -> workstation_name P e ws -> is_entropy r ->
  (forall ch, accepts h ch -> valid_challenge ch) ->
  ((exists w, answer cfg P c h (OpAuthenticate r) = OutPanic w)
   <-> ~ (negotiable level dom /\ exists ch, accepts h ch /\ reply_fits cfg level user dom ws ch r))
  /\ ((exists b, answer cfg P c h (OpAuthenticate r) = OutBytes b)
   <-> negotiable level dom /\ exists ch, accepts h ch /\ reply_fits cfg level user dom ws ch r).
Proof. exact C24_panics_exactly_lem. Qed.
Print Assumptions C24_panics_exactly.
(** The sizes that matter: at levels 0 to 2 only the three names. *)
Theorem C24_levels_0_to_2 : forall cfg level user dom ws ch r, level <= 2 ->
  reply_fits cfg level user dom ws ch r <->
  len (utf16le user) <= 65535 /\ len (utf16le dom) <= 65535 /\ len (content (opt_map utf16le ws)) <= 65535.
Proof. exact C24_levels_0_to_2_lem. Qed.
Print Assumptions C24_levels_0_to_2.
Example C24_ex : workstation_name real_prims host_env (Some str_COMPUTER)
  /\ (forall ch, accepts (sample_history sealed_challenge) ch -> valid_challenge ch)
  /\ reply_fits cfg_debug 3 str_User str_Domain (Some str_COMPUTER) sealed_challenge sample_entropy
  /\ answer cfg_debug real_prims (sample_client 3) [OpNegociate] (OpAuthenticate sample_entropy) = OutPanic PUnreachable.
Proof. exact C24_ex_lem. Qed.

(** * C25: Content of the NEGOTIATE message sent *)
(** In every state the same bytes, which decode to a message with exactly the
    flags of the level and the domain. *)
Theorem C25_negotiate_sent : forall cfg P e level user dom pw target c,
  made cfg P e level user dom pw target c -> negotiable level dom ->
  exists b n, (forall h, answer cfg P c h OpNegociate = OutBytes b)
    /\ (forall cfg', negotiate_de cfg' b = POk [] n)
    /\ (forall i, N.testbit (n_flags n) i
          = existsb (N.eqb i) (level_bits level ++ match dom with [] => [] | _ => [12] end))
    /\ n_domain n = match dom with [] => None | _ => Some dom end
    /\ n_workstation n = None /\ n_version n = None.
Proof. exact C25_negotiate_sent_lem. Qed.
Print Assumptions C25_negotiate_sent.
(** Other levels, and domains of 64 KiB or more, panic in every state. *)
Theorem C25_unsupported_panics : forall cfg P e level user dom pw target c h,
  made cfg P e level user dom pw target c -> ~ negotiable level dom ->
  exists w, answer cfg P c h OpNegociate = OutPanic w.
Proof. exact C25_unsupported_panics_lem. Qed.
Print Assumptions C25_unsupported_panics.
Example C25_ex : negotiable 2 str_Domain /\ ~ negotiable 6 str_Domain
  /\ answer cfg_debug real_prims (sample_client 2) [] OpNegociate
     = OutBytes [78; 84; 76; 77; 83; 83; 80; 0; 1; 0; 0; 0; 55; 144; 138; 96; 6; 0; 6; 0; 32; 0; 0; 0;
                 0; 0; 0; 0; 0; 0; 0; 0; 68; 111; 109; 97; 105; 110].
Proof. exact C25_ex_lem. Qed.

(** * C26: The reply depends only on credentials, accepted challenge and fresh randomness *)
(** Two clients for the same account on hosts with the same name, whose
    passwords have the same hashes, with any targets and any histories that
    accept the same challenge, return the same from a call that draws the same
    random bytes and time. *)
Theorem C26_reply_determined : forall cfg P e e' level user dom pw pw' target target' c c' h h' ws ch r,
  made cfg P e level user dom pw target c -> made cfg P e' level user dom pw' target' c' ->
  workstation_name P e ws -> workstation_name P e' ws ->
  lmowfv1 P pw = lmowfv1 P pw' -> ntowfv1 cfg P pw = ntowfv1 cfg P pw' ->
  accepts h ch -> accepts h' ch -> negotiable level dom ->
  answer cfg P c h (OpAuthenticate r) = answer cfg P c' h' (OpAuthenticate r).
Proof. exact C26_reply_determined_lem. Qed.
Print Assumptions C26_reply_determined.
(** The reply of one client does not depend on what it did before. *)
Theorem C26_history_irrelevant : forall cfg P e level user dom pw target c h h' ch r,
  made cfg P e level user dom pw target c -> accepts h ch -> accepts h' ch ->
  negotiable level dom ->
  answer cfg P c h (OpAuthenticate r) = answer cfg P c h' (OpAuthenticate r).
Proof. exact C26_history_irrelevant_lem. Qed.
Print Assumptions C26_history_irrelevant.
(** "Password" and "Password" on two machines with the same name, found in two ways. *)
Example C26_ex :
  let e' := mkEnv None None None None (Some [99; 111; 109; 112; 117; 116; 101; 114; 46; 99; 111; 109; 10]) in
  workstation_name real_prims host_env (Some str_COMPUTER) /\ workstation_name real_prims e' (Some str_COMPUTER)
  /\ (exists c', made cfg_debug real_prims e' 3 str_User str_Domain str_Password [] c')
  /\ accepts (sample_history sealed_challenge) sealed_challenge
  /\ accepts [OpNegociate; OpRecvChallenge sealed_challenge] sealed_challenge.
Proof. exact C26_ex_lem. Qed.
