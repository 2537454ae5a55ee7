(** Property theorems proved in [FactsLmv2.v]; generated by tools/gen.py. *)
From Verif Require Import Base Nom Unicode Wire Structures Prims Messages Crypto Client Spec SpecBuild SpecCrypto SpecClient SpecServer SamplesLabour SpecLmv2 SamplesLmv2 Lib Encode Decode RoundTrip Parse Inject Samples FactsEncode FactsDecode FactsBuild DesKey RealPrims DesPerm FactsCrypto SamplesClient History Reply FactsClient FactsReply FactsInject FactsServer FactsLmv2.

(** * C67: A server accepts the reply *)
(** An HMAC that begins so does make a server accept a reply of level 3. *)
Example C67_new_levels_ex :
  let P := lucky_prims (mkFileTime 4096 30000000) in
  let w := challenge_bytes cfg_debug sealed_challenge in
  replies cfg_debug P host_env 3 str_User str_Domain str_Password sealed_challenge sample_entropy (toy_reply P 3 sealed_challenge)
  /\ exists K', server P (fun _ _ => Some (mkAccount str_User str_Domain str_Password)) w (toy_reply P 3 sealed_challenge) = Some K'.
Proof. exact C67_new_levels_ex_lem. Qed.

(** * C112: A server that takes LMv2 responses *)
(** Which servers take the LMv2 response of a reply of levels 3 to 5, whatever
    challenge they sent and whatever accounts they have. *)
Theorem C112_accepted : forall cfg P e level user dom pw ch r b db w, 3 <= level -> host_le cfg = true ->
  replies cfg P e level user dom pw ch r b ->
  (takes_lmv2 P db w b = true <-> exists a, db (utf16le user) (utf16le dom) = Some a
     /\ p_hmac_md5 P (NTOWFv2 P (acc_password a) (acc_user a) (acc_domain a)) (sub w 24 8 ++ e_client_challenge r)
        = p_hmac_md5 P (NTOWFv2 P pw user dom) (ch_server_challenge ch ++ e_client_challenge r)).
Proof. exact C112_accepted_lem. Qed.
Print Assumptions C112_accepted.
(** The server that sent [w] and knows the account logs the user on, at every level. *)
Theorem C112_logon : forall cfg P e level user dom pw w rest ch r b db, host_le cfg = true ->
  is_bytes w -> challenge_de cfg w = POk rest ch -> replies cfg P e level user dom pw ch r b ->
  db (utf16le user) (utf16le dom) = Some (mkAccount user dom pw) ->
  logs_on P db w b = true.
Proof. exact C112_logon_lem. Qed.
Print Assumptions C112_logon.
(** A server that knows the account and sent another challenge refuses the LMv2
    response, unless HMAC-MD5 has a collision. *)
Theorem C112_no_replay : forall cfg P e level user dom pw ch r b db w, 3 <= level -> host_le cfg = true ->
  is_buffer 8 (sub w 24 8) -> replies cfg P e level user dom pw ch r b ->
  db (utf16le user) (utf16le dom) = Some (mkAccount user dom pw) ->
  takes_lmv2 P db w b = true ->
  sub w 24 8 = ch_server_challenge ch \/ hmac_collision P (NTOWFv2 P pw user dom).
Proof. exact C112_no_replay_lem. Qed.
Print Assumptions C112_no_replay.
(** The LMv2 response does not depend on what the server said of itself: with
    one challenge, one account and one draw it is the same at every level from
    3, for any flags, target name, version and target information. *)
Theorem C112_target_not_bound : forall cfg P e e' level level' user dom pw ch ch' r b b', 3 <= level -> 3 <= level' -> host_le cfg = true ->
  replies cfg P e level user dom pw ch r b -> replies cfg P e' level' user dom pw ch' r b' ->
  ch_server_challenge ch = ch_server_challenge ch' ->
  field_data b 12 = field_data b' 12.
Proof. exact C112_target_not_bound_lem. Qed.
Print Assumptions C112_target_not_bound.
Example C112_ex :
  let w := challenge_bytes cfg_debug sealed_challenge in
  let w' := challenge_bytes cfg_debug (mkChallenge None 513 [1; 35; 69; 103; 137; 171; 205; 238] [] None) in
  let db u d := if beq_bytes u (utf16le str_User) && beq_bytes d (utf16le str_Domain)
                then Some (mkAccount str_User str_Domain str_Password) else None in
  let b := toy_reply xor_prims 3 sealed_challenge in
  replies cfg_debug xor_prims host_env 3 str_User str_Domain str_Password sealed_challenge sample_entropy b
  /\ is_bytes w /\ challenge_de cfg_debug w = POk [] sealed_challenge
  /\ is_buffer 8 (sub w' 24 8)
  /\ server xor_prims db w b = None /\ takes_lmv2 xor_prims db w b = true /\ logs_on xor_prims db w b = true
  /\ takes_lmv2 xor_prims db w' b = false
  /\ takes_lmv2 xor_prims (fun _ _ => Some (mkAccount str_Server str_Domain str_Password)) w b = false
  /\ takes_lmv2 xor_prims (fun _ _ => None) w b = false
  /\ replies cfg_debug xor_prims host_env 4 str_User str_Domain str_Password old_challenge sample_entropy (toy_reply xor_prims 4 old_challenge)
  /\ ch_server_challenge old_challenge = ch_server_challenge sealed_challenge.
Proof. exact C112_ex_lem. Qed.
