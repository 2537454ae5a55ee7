(** Property theorems proved in [FactsStrip.v]; generated by tools/gen.py. *)
From Verif Require Import Base Nom Unicode Wire Structures Prims Messages Crypto Client Spec SpecBuild SpecCrypto SpecClient SpecServer SamplesLabour SpecLmv2 SamplesLmv2 Lib Encode Decode RoundTrip Parse Inject Samples FactsEncode FactsDecode FactsBuild DesKey RealPrims DesPerm FactsCrypto SamplesClient History Reply FactsClient FactsReply FactsInject FactsServer FactsLmv2 SpecQueries SpecSecrecy SpecTrace Trace FactsTrace FactsSecrecy SamplesStrip FactsStrip.

(** * C130: The challenge on its way to the client *)
(** The server sent [w], and the client took the challenge [ch] in its place.  If the 8 bytes of
    the challenge are those of the server and, at levels 0 to 2, so is the flag
    EXTENDED_SESSIONSECURITY, the server logs the user on.  At levels 3 to 5 the flags of the
    reply do not tell what happened to those of the challenge. *)
Theorem C130_logon : forall cfg P e level user dom pw w ch r b db, host_le cfg = true ->
  replies cfg P e level user dom pw ch r b ->
  sub w 24 8 = ch_server_challenge ch -> (level <= 2 -> ESS (u32_at w 20) = ESS (ch_flags ch)) ->
  db (utf16le user) (utf16le dom) = Some (mkAccount user dom pw) ->
  logs_on P db w b = true /\ (3 <= level -> u32_at b 60 = 1082130437).
Proof. exact C130_logon_lem. Qed.
Print Assumptions C130_logon.
(** If the flags that lead to a key exchange were taken away, the client sends zeros for a
    session key, and has one that anybody with the hash of the password works out from the
    messages, whatever it drew. *)
Theorem C130_key : forall cfg P e level user dom pw target c h ch r b K, host_le cfg = true ->
  made cfg P e level user dom pw target c -> concludes cfg P c h ch r b K -> key_exchange (ch_flags ch) = false ->
  field_data b 52 = zeros 16
  /\ (3 <= level -> exists t, response_time ch r = Some t /\ K = base_key_of cfg P (NTOWFv2 P pw user dom) ch r t)
  /\ (level <= 2 -> forall lm, lmowfv1 P pw = Val lm -> K = old_base_key P level (NTOWFv1 P pw) lm ch r).
Proof. exact C130_key_lem. Qed.
Print Assumptions C130_key.
(** That a user is logged on does not mean that the challenge arrived as it was sent, at any
    level, nor that the key they drew is the session key. *)
Example C130_ex :
  let w := challenge_bytes cfg_debug sealed_challenge in
  let db u d := if beq_bytes u (utf16le str_User) && beq_bytes d (utf16le str_Domain)
                then Some (mkAccount str_User str_Domain str_Password) else None in
  key_exchange (u32_at w 20) = true /\ key_exchange (ch_flags stripped_challenge) = false
  /\ ESS (u32_at w 20) = true /\ ESS (ch_flags stripped_challenge) = true
  /\ sub w 24 8 = ch_server_challenge stripped_challenge
  /\ db (utf16le str_User) (utf16le str_Domain) = Some (mkAccount str_User str_Domain str_Password)
  /\ forall level, level <= 5 ->
     replies cfg_debug xor_prims host_env level str_User str_Domain str_Password stripped_challenge sample_entropy (toy_reply xor_prims level stripped_challenge)
     /\ made cfg_debug xor_prims host_env level str_User str_Domain str_Password str_target (toy_client xor_prims level)
     /\ concludes cfg_debug xor_prims (toy_client xor_prims level) (sample_history stripped_challenge) stripped_challenge sample_entropy
          (toy_reply xor_prims level stripped_challenge) (toy_key xor_prims level stripped_challenge)
     /\ logs_on xor_prims db w (toy_reply xor_prims level stripped_challenge) = true
     /\ toy_key xor_prims level stripped_challenge <> e_session_key sample_entropy
     /\ toy_key xor_prims level sealed_challenge = e_session_key sample_entropy.
Proof. exact C130_ex_lem. Qed.
(** A user should be logged on only if the challenge that they answered is the one the server
    sent.  It is not so. *)
Theorem C130_arrives_refuted :
  ~ (forall cfg P e level user dom pw sent ch r b db, host_le cfg = true -> valid_challenge sent ->
     replies cfg P e level user dom pw ch r b ->
     db (utf16le user) (utf16le dom) = Some (mkAccount user dom pw) ->
     logs_on P db (challenge_bytes cfg sent) b = true -> sent = ch).
Proof. exact C130_arrives_refuted_lem. Qed.
Print Assumptions C130_arrives_refuted.
