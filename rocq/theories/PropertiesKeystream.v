(** Property theorems proved in [FactsKeystream.v]; generated by tools/gen.py. *)
From Verif Require Import Base Nom Unicode Wire Structures Prims Messages Crypto Client Spec SpecBuild SpecCrypto SpecClient Lib Encode Decode RoundTrip Parse Samples FactsEncode FactsDecode FactsBuild DesKey RealPrims FactsCrypto SamplesClient History Reply FactsClient FactsReply SpecTrace Trace FactsTrace SamplesLabour SamplesLmv2 SamplesTiming FactsLmv2 FactsTiming SamplesPlaces FactsPlaces SpecQueries SamplesQueries FactsQueries SpecSecrecy SpecKeystream SamplesKeystream FactsKeystream.

(** * C122: One key stream for several session keys *)
(** Levels 0 to 2 without EXTENDED_SESSIONSECURITY: to one server challenge, all clients with
    the password encrypt with one key stream; the replies tell which bits the session keys
    differ in. *)
Theorem C122_repeated_refuted : forall cfg P level pw e1 user1 dom1 target1 c1 h1 ch1 r1 b1 K1 e2 user2 dom2 target2 c2 h2 ch2 r2 b2 K2,
  level <= 2 ->
  made cfg P e1 level user1 dom1 pw target1 c1 -> concludes cfg P c1 h1 ch1 r1 b1 K1 ->
  made cfg P e2 level user2 dom2 pw target2 c2 -> concludes cfg P c2 h2 ch2 r2 b2 K2 ->
  ch_server_challenge ch1 = ch_server_challenge ch2 ->
  ESS (ch_flags ch1) = false -> ESS (ch_flags ch2) = false ->
  key_exchange (ch_flags ch1) = true -> key_exchange (ch_flags ch2) = true ->
  XOR (field_data b1 52) (field_data b2 52) = XOR K1 K2.
Proof. exact C122_repeated_refuted_lem. Qed.
Print Assumptions C122_repeated_refuted.
(** With EXTENDED_SESSIONSECURITY, the keys that encrypt are the same only if both challenges
    are, or else HMAC-MD5 has a collision under the account's session base key. *)
Theorem C122_fresh_old : forall cfg P level pw e1 user1 dom1 target1 c1 h1 ch1 r1 b1 K1 e2 user2 dom2 target2 c2 h2 ch2 r2 b2 K2,
  host_le cfg = true -> level <= 2 ->
  made cfg P e1 level user1 dom1 pw target1 c1 -> concludes cfg P c1 h1 ch1 r1 b1 K1 ->
  made cfg P e2 level user2 dom2 pw target2 c2 -> concludes cfg P c2 h2 ch2 r2 b2 K2 ->
  ESS (ch_flags ch1) = true -> ESS (ch_flags ch2) = true ->
  key_exchange (ch_flags ch1) = true -> key_exchange (ch_flags ch2) = true ->
  exists x1 x2, field_data b1 52 = RC4K P x1 K1 /\ field_data b2 52 = RC4K P x2 K2
    /\ (x1 = x2 ->
         (ch_server_challenge ch1 = ch_server_challenge ch2 /\ e_client_challenge r1 = e_client_challenge r2)
         \/ let m1 := ch_server_challenge ch1 ++ e_client_challenge r1 in
            let m2 := ch_server_challenge ch2 ++ e_client_challenge r2 in
            m1 <> m2 /\ p_hmac_md5 P (v1_session_base_key P (NTOWFv1 P pw)) m1 = p_hmac_md5 P (v1_session_base_key P (NTOWFv1 P pw)) m2).
Proof. exact C122_fresh_old_lem. Qed.
Print Assumptions C122_fresh_old.
(** Levels 3 to 5: the same, with the collision under the account's NTLMv2 key, and the time
    and the target information are the same then, too. *)
Theorem C122_fresh : forall cfg P level pw user dom e1 target1 c1 h1 ch1 r1 b1 K1 t1 e2 target2 c2 h2 ch2 r2 b2 K2 t2,
  host_le cfg = true -> 3 <= level ->
  made cfg P e1 level user dom pw target1 c1 -> concludes cfg P c1 h1 ch1 r1 b1 K1 ->
  made cfg P e2 level user dom pw target2 c2 -> concludes cfg P c2 h2 ch2 r2 b2 K2 ->
  response_time ch1 r1 = Some t1 -> response_time ch2 r2 = Some t2 ->
  key_exchange (ch_flags ch1) = true -> key_exchange (ch_flags ch2) = true ->
  let k2 := NTOWFv2 P pw user dom in
  exists x1 x2, field_data b1 52 = RC4K P x1 K1 /\ field_data b2 52 = RC4K P x2 K2
    /\ (x1 = x2 ->
         (ch_server_challenge ch1 = ch_server_challenge ch2 /\ e_client_challenge r1 = e_client_challenge r2 /\ field_data b1 20 = field_data b2 20)
         \/ (let m1 := ch_server_challenge ch1 ++ v2_temp cfg t1 (e_client_challenge r1) (ch_target_infos ch1) in
             let m2 := ch_server_challenge ch2 ++ v2_temp cfg t2 (e_client_challenge r2) (ch_target_infos ch2) in
             m1 <> m2 /\ p_hmac_md5 P k2 m1 = p_hmac_md5 P k2 m2)
         \/ (proof_of cfg P k2 ch1 r1 t1 <> proof_of cfg P k2 ch2 r2 t2
             /\ p_hmac_md5 P k2 (proof_of cfg P k2 ch1 r1 t1) = p_hmac_md5 P k2 (proof_of cfg P k2 ch2 r2 t2))).
Proof. exact C122_fresh_lem. Qed.
Print Assumptions C122_fresh.
(** At level 1 two replies to one server challenge, sent with one key stream; with
    EXTENDED_SESSIONSECURITY and at level 3 the key streams differ. *)
Example C122_ex :
  Forall (fun p => let '(level, ch, r) := p in
    made cfg_debug adding_prims host_env level str_User str_Domain str_Password str_target (adding_client level)
    /\ concludes cfg_debug adding_prims (adding_client level) [OpNegociate; OpRecvChallenge ch] ch r (drawn_reply level ch r) (e_session_key r)
    /\ key_exchange (ch_flags ch) = true /\ response_time ch r <> None)
    [(1, plain_challenge, sample_entropy); (1, signed_challenge, second_entropy); (1, sealed_challenge, sample_entropy);
     (1, sealed_challenge, second_entropy); (3, sealed_challenge, sample_entropy); (3, sealed_challenge, second_entropy)]
  /\ (ESS (ch_flags plain_challenge), ESS (ch_flags signed_challenge), ESS (ch_flags sealed_challenge)) = (false, false, true)
  /\ let stream level ch r := XOR (field_data (drawn_reply level ch r) 52) (e_session_key r) in
     e_session_key sample_entropy <> e_session_key second_entropy
  /\ stream 1 plain_challenge sample_entropy = stream 1 signed_challenge second_entropy
  /\ stream 1 sealed_challenge sample_entropy <> stream 1 sealed_challenge second_entropy
  /\ stream 3 sealed_challenge sample_entropy <> stream 3 sealed_challenge second_entropy.
Proof. exact C122_ex_lem. Qed.
