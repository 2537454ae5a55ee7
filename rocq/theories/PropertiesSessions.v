(** Property theorems proved in [FactsSessions.v]; generated by tools/gen.py. *)
From Verif Require Import Base Nom Unicode Wire Structures Prims Messages Crypto Client Spec SpecBuild SpecCrypto SpecClient Lib Encode Decode RoundTrip Parse Samples FactsEncode FactsDecode FactsBuild DesKey RealPrims FactsCrypto SamplesClient History Reply FactsClient FactsReply SpecTrace Trace FactsTrace SamplesLabour SamplesLmv2 SamplesTiming FactsLmv2 FactsTiming SamplesPlaces FactsPlaces SpecQueries SamplesQueries FactsQueries SpecSecrecy SpecKeystream SamplesKeystream FactsKeystream SamplesStrip FactsStrip SamplesSessions FactsSessions.

(** * C134: Session keys of several sessions *)
(** With key exchange the session key is the one drawn, at every level. *)
Theorem C134_drawn : forall cfg P e level user dom pw target c h ch r b K,
  made cfg P e level user dom pw target c -> concludes cfg P c h ch r b K -> key_exchange (ch_flags ch) = true ->
  K = e_session_key r.
Proof. exact C134_drawn_lem. Qed.
Print Assumptions C134_drawn.
(** Levels 0 to 2, with neither EXTENDED_SESSIONSECURITY nor key exchange: to one server
    challenge all clients with the password have one session key, whatever their names and
    hosts and whatever they draw. *)
Theorem C134_repeated : forall cfg P level pw e1 user1 dom1 target1 c1 h1 ch1 r1 b1 K1 e2 user2 dom2 target2 c2 h2 ch2 r2 b2 K2,
  host_le cfg = true -> level <= 2 ->
  made cfg P e1 level user1 dom1 pw target1 c1 -> concludes cfg P c1 h1 ch1 r1 b1 K1 ->
  made cfg P e2 level user2 dom2 pw target2 c2 -> concludes cfg P c2 h2 ch2 r2 b2 K2 ->
  key_exchange (ch_flags ch1) = false -> key_exchange (ch_flags ch2) = false ->
  ESS (ch_flags ch1) = false -> ESS (ch_flags ch2) = false ->
  ch_server_challenge ch1 = ch_server_challenge ch2 -> K1 = K2.
Proof. exact C134_repeated_lem. Qed.
Print Assumptions C134_repeated.
(** With EXTENDED_SESSIONSECURITY, and without key exchange, session keys of a password are the
    same only if both challenges are, or else HMAC-MD5 has a collision under the session base
    key of MS-NLMP, at the two points that were hashed. *)
Theorem C134_old : forall cfg P level pw e1 user1 dom1 target1 c1 h1 ch1 r1 b1 K1 e2 user2 dom2 target2 c2 h2 ch2 r2 b2 K2,
  host_le cfg = true -> level <= 2 ->
  made cfg P e1 level user1 dom1 pw target1 c1 -> concludes cfg P c1 h1 ch1 r1 b1 K1 ->
  made cfg P e2 level user2 dom2 pw target2 c2 -> concludes cfg P c2 h2 ch2 r2 b2 K2 ->
  key_exchange (ch_flags ch1) = false -> key_exchange (ch_flags ch2) = false ->
  ESS (ch_flags ch1) = true -> ESS (ch_flags ch2) = true -> K1 = K2 ->
  (ch_server_challenge ch1 = ch_server_challenge ch2 /\ e_client_challenge r1 = e_client_challenge r2)
  \/ let m1 := ch_server_challenge ch1 ++ e_client_challenge r1 in
     let m2 := ch_server_challenge ch2 ++ e_client_challenge r2 in
     m1 <> m2 /\ p_hmac_md5 P (v1_session_base_key P (NTOWFv1 P pw)) m1 = p_hmac_md5 P (v1_session_base_key P (NTOWFv1 P pw)) m2.
Proof. exact C134_old_lem. Qed.
Print Assumptions C134_old.
(** Levels 3 to 5 without key exchange: the same, with the collision under the NTLMv2 key of the
    account; and the whole responses are the same then, with the time and the target
    information. *)
Theorem C134_new : forall cfg P level pw user dom e1 target1 c1 h1 ch1 r1 b1 K1 t1 e2 target2 c2 h2 ch2 r2 b2 K2 t2,
  host_le cfg = true -> 3 <= level ->
  made cfg P e1 level user dom pw target1 c1 -> concludes cfg P c1 h1 ch1 r1 b1 K1 ->
  made cfg P e2 level user dom pw target2 c2 -> concludes cfg P c2 h2 ch2 r2 b2 K2 ->
  response_time ch1 r1 = Some t1 -> response_time ch2 r2 = Some t2 ->
  key_exchange (ch_flags ch1) = false -> key_exchange (ch_flags ch2) = false -> K1 = K2 ->
  let k2 := NTOWFv2 P pw user dom in
  (ch_server_challenge ch1 = ch_server_challenge ch2 /\ e_client_challenge r1 = e_client_challenge r2 /\ field_data b1 20 = field_data b2 20)
  \/ (let m1 := ch_server_challenge ch1 ++ v2_temp cfg t1 (e_client_challenge r1) (ch_target_infos ch1) in
      let m2 := ch_server_challenge ch2 ++ v2_temp cfg t2 (e_client_challenge r2) (ch_target_infos ch2) in
      m1 <> m2 /\ p_hmac_md5 P k2 m1 = p_hmac_md5 P k2 m2)
  \/ (proof_of cfg P k2 ch1 r1 t1 <> proof_of cfg P k2 ch2 r2 t2
      /\ p_hmac_md5 P k2 (proof_of cfg P k2 ch1 r1 t1) = p_hmac_md5 P k2 (proof_of cfg P k2 ch2 r2 t2)).
Proof. exact C134_new_lem. Qed.
Print Assumptions C134_new.
(** Two sessions each: at level 1 with one session key; with EXTENDED_SESSIONSECURITY, at level 3
    and with key exchange they have two. *)
Example C134_ex :
  Forall (fun p => let '(level, ch) := p in
    made cfg_debug adding_prims host_env level str_User str_Domain str_Password str_target (adding_client level)
    /\ Forall (fun r => concludes cfg_debug adding_prims (adding_client level) [OpNegociate; OpRecvChallenge ch] ch r (drawn_reply level ch r) (drawn_key level ch r)
         /\ response_time ch r <> None) [sample_entropy; second_entropy])
    [(1, bare_challenge); (1, stripped_challenge); (3, stripped_challenge); (1, plain_challenge)]
  /\ map (fun ch => (key_exchange (ch_flags ch), ESS (ch_flags ch))) [bare_challenge; stripped_challenge; plain_challenge]
     = [(false, false); (false, true); (true, false)]
  /\ e_client_challenge sample_entropy <> e_client_challenge second_entropy
  /\ let same level ch := beq_bytes (drawn_key level ch sample_entropy) (drawn_key level ch second_entropy) in
     (same 1 bare_challenge, same 1 stripped_challenge, same 3 stripped_challenge, same 1 plain_challenge) = (true, false, false, false).
Proof. exact C134_ex_lem. Qed.
(** Sessions in which a client drew different numbers should have different session keys:
    false. *)
Theorem C134_sessions_refuted :
  ~ (forall cfg P e level user dom pw target c h ch r1 b1 K1 r2 b2 K2, host_le cfg = true ->
     made cfg P e level user dom pw target c -> concludes cfg P c h ch r1 b1 K1 -> concludes cfg P c h ch r2 b2 K2 ->
     e_client_challenge r1 <> e_client_challenge r2 -> e_session_key r1 <> e_session_key r2 -> K1 <> K2).
Proof. exact C134_sessions_refuted_lem. Qed.
Print Assumptions C134_sessions_refuted.
