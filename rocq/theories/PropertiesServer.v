(** Property theorems proved in [FactsServer.v]; generated by tools/gen.py. *)
From Verif Require Import Base Nom Unicode Wire Structures Prims Messages Crypto Client Spec SpecBuild SpecCrypto SpecClient SpecServer Lib Encode Decode RoundTrip Parse Inject Samples FactsEncode FactsDecode FactsBuild DesKey RealPrims DesPerm FactsCrypto SamplesClient History Reply FactsClient FactsReply FactsInject FactsServer.

(** * C67: A server accepts the reply *)
(** Which servers accept a reply of levels 0 to 2, whatever challenge they
    sent and whatever accounts they have. *)
Theorem C67_accepted : forall cfg P e level user dom pw ch r b db w, level <= 2 -> host_le cfg = true ->
  replies cfg P e level user dom pw ch r b ->
  let cc := sub (field_data b 12) 0 8 in
  (server P db w b <> None <-> exists a, db (utf16le user) (utf16le dom) = Some a
     /\ DESL P (NTOWFv1 P (acc_password a)) (v1_plain P (u32_at w 20) (sub w 24 8) cc)
        = DESL P (NTOWFv1 P pw) (v1_plain P (ch_flags ch) (ch_server_challenge ch) cc)).
Proof. exact C67_accepted_lem. Qed.
Print Assumptions C67_accepted.
(** The server that sent [w] and knows the account accepts the reply to [w];
    with EXTENDED_SESSIONSECURITY it has the session key of the client. *)
Theorem C67_logon : forall cfg P e level user dom pw target c h w rest ch r b K db, level <= 2 -> host_le cfg = true ->
  is_bytes w -> challenge_de cfg w = POk rest ch ->
  made cfg P e level user dom pw target c -> concludes cfg P c h ch r b K ->
  db (utf16le user) (utf16le dom) = Some (mkAccount user dom pw) ->
  exists K', server P db w b = Some K' /\ (N.testbit (u32_at w 20) 19 = true -> K' = K).
Proof. exact C67_logon_lem. Qed.
Print Assumptions C67_logon.
(** Without that flag the two sides need not have the same key. *)
Theorem C67_same_key_refuted :
  ~ (forall cfg P e level user dom pw target c h w rest ch r b K db, level <= 2 -> host_le cfg = true ->
      is_bytes w -> challenge_de cfg w = POk rest ch ->
      made cfg P e level user dom pw target c -> concludes cfg P c h ch r b K ->
      db (utf16le user) (utf16le dom) = Some (mkAccount user dom pw) ->
      server P db w b = Some K).
Proof. exact C67_same_key_refuted_lem. Qed.
Print Assumptions C67_same_key_refuted.
(** Levels 3 to 5: no server accepts the reply unless an HMAC happens to begin
    with the bytes 1, 1, 0, 0, 0, 0, 0, 0 and the time. *)
Theorem C67_new_levels : forall cfg P e level user dom pw ch r b db w K', 3 <= level -> host_le cfg = true ->
  replies cfg P e level user dom pw ch r b -> server P db w b = Some K' ->
  exists a t, db (utf16le user) (utf16le dom) = Some a /\ response_time ch r = Some t
    /\ p_hmac_md5 P (NTOWFv2 P (acc_password a) (acc_user a) (acc_domain a))
         (sub w 24 8 ++ e_client_challenge r ++ zeros 4 ++ av_list_bytes cfg (ch_target_infos ch))
       = [1; 1] ++ zeros 6 ++ filetime_bytes t.
Proof. exact C67_new_levels_lem. Qed.
Print Assumptions C67_new_levels.
Theorem C67_logon_refuted :
  ~ (forall cfg P e level user dom pw target c h w rest ch r b K db, 3 <= level <= 5 -> host_le cfg = true ->
      is_bytes w -> challenge_de cfg w = POk rest ch ->
      made cfg P e level user dom pw target c -> concludes cfg P c h ch r b K ->
      db (utf16le user) (utf16le dom) = Some (mkAccount user dom pw) ->
      exists K', server P db w b = Some K').
Proof. exact C67_logon_refuted_lem. Qed.
Print Assumptions C67_logon_refuted.
Example C67_ex :
  let w := challenge_bytes cfg_debug sealed_challenge in
  let db u d := if beq_bytes u (utf16le str_User) && beq_bytes d (utf16le str_Domain)
                then Some (mkAccount str_User str_Domain str_Password) else None in
  is_bytes w /\ challenge_de cfg_debug w = POk [] sealed_challenge
  /\ made cfg_debug real_prims host_env 2 str_User str_Domain str_Password str_target (sample_client 2)
  /\ concludes cfg_debug real_prims (sample_client 2) (sample_history sealed_challenge) sealed_challenge sample_entropy
       (sample_reply 2 sealed_challenge) (repeat 85 16)
  /\ N.testbit (u32_at w 20) 19 = true
  /\ server real_prims db w (sample_reply 2 sealed_challenge) = Some (repeat 85 16)
  /\ server real_prims (fun _ _ => Some (mkAccount str_User str_Domain str_Server)) w (sample_reply 2 sealed_challenge) = None
  /\ replies cfg_debug real_prims host_env 3 str_User str_Domain str_Password sealed_challenge sample_entropy
       (sample_reply 3 sealed_challenge).
Proof. exact C67_ex_lem. Qed.

(** * C68: A reply cannot be replayed *)
(** A reply of levels 0 to 2 is accepted by a server with the same account for
    one value of what the response encrypts. *)
Theorem C68_one_challenge : forall cfg P e level user dom pw ch r b db w K' a, level <= 2 -> host_le cfg = true ->
  des_permutes P -> is_buffer 8 (sub w 24 8) ->
  replies cfg P e level user dom pw ch r b ->
  db (utf16le user) (utf16le dom) = Some a -> acc_password a = pw ->
  server P db w b = Some K' ->
  let cc := sub (field_data b 12) 0 8 in
  v1_plain P (u32_at w 20) (sub w 24 8) cc = v1_plain P (ch_flags ch) (ch_server_challenge ch) cc.
Proof. exact C68_one_challenge_lem. Qed.
Print Assumptions C68_one_challenge.
(** Replay: the second server, which knows the account and sent another
    challenge, refuses, unless MD5 has a collision on its first 8 bytes. *)
Theorem C68_no_replay : forall cfg P e level user dom pw ch r b db w K', level <= 2 -> host_le cfg = true ->
  des_permutes P -> is_buffer 8 (sub w 24 8) ->
  replies cfg P e level user dom pw ch r b ->
  db (utf16le user) (utf16le dom) = Some (mkAccount user dom pw) ->
  N.testbit (u32_at w 20) 19 = N.testbit (ch_flags ch) 19 ->
  server P db w b = Some K' ->
  sub w 24 8 = ch_server_challenge ch
  \/ N.testbit (ch_flags ch) 19 = true
     /\ exists x y, x <> y /\ len x = 16 /\ len y = 16 /\ sub (p_md5 P x) 0 8 = sub (p_md5 P y) 0 8.
Proof. exact C68_no_replay_lem. Qed.
Print Assumptions C68_no_replay.
Theorem C68_real_des : des_permutes real_prims.
Proof. exact C68_real_des_lem. Qed.
Print Assumptions C68_real_des.
(** With the flag changed, a reply for one challenge serves for another. *)
Theorem C68_no_replay_refuted :
  ~ (forall cfg P e level user dom pw ch r b db w K', level <= 2 -> host_le cfg = true ->
      des_permutes P -> is_buffer 8 (sub w 24 8) ->
      replies cfg P e level user dom pw ch r b ->
      db (utf16le user) (utf16le dom) = Some (mkAccount user dom pw) ->
      server P db w b = Some K' ->
      sub w 24 8 = ch_server_challenge ch).
Proof. exact C68_no_replay_refuted_lem. Qed.
Print Assumptions C68_no_replay_refuted.
Example C68_ex :
  let w := challenge_bytes cfg_debug old_challenge in
  replies cfg_debug real_prims host_env 1 str_User str_Domain str_Password old_challenge sample_entropy (sample_reply 1 old_challenge)
  /\ is_buffer 8 (sub w 24 8) /\ N.testbit (u32_at w 20) 19 = N.testbit (ch_flags old_challenge) 19
  /\ server real_prims (fun _ _ => Some (mkAccount str_User str_Domain str_Password)) w (sample_reply 1 old_challenge) <> None
  /\ server real_prims (fun _ _ => Some (mkAccount str_User str_Domain str_Password))
       (challenge_bytes cfg_debug (mkChallenge None 513 [1; 35; 69; 103; 137; 171; 205; 238] [] None)) (sample_reply 1 old_challenge) = None.
Proof. exact C68_ex_lem. Qed.
