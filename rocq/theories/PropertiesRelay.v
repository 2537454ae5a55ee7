(** Property theorems proved in [FactsRelay.v]; generated by tools/gen.py. *)
From Verif Require Import Base Nom Unicode Wire Structures Prims Messages Crypto Client Spec SpecBuild SpecCrypto SpecClient SpecServer SamplesLabour SpecLmv2 SamplesLmv2 Lib Encode Decode RoundTrip Parse Inject Samples FactsEncode FactsDecode FactsBuild DesKey RealPrims DesPerm FactsCrypto SamplesClient History Reply FactsClient FactsReply FactsInject FactsServer FactsLmv2 SpecQueries SpecSecrecy SpecTrace Trace FactsTrace FactsSecrecy SamplesStrip FactsStrip SamplesRelay FactsRelay.

(** * C131: A challenge passed on from another server *)
(** A client made for any target is given a challenge [w] that any server sent.  That server logs
    the user on with the reply. *)
Theorem C131_relay : forall cfg P e level user dom pw target c h w rest ch r b db, host_le cfg = true ->
  made cfg P e level user dom pw target c -> is_bytes w -> challenge_de cfg w = POk rest ch -> valid_challenge ch ->
  is_entropy r -> accepts h ch -> answer cfg P c h (OpAuthenticate r) = OutBytes b ->
  db (utf16le user) (utf16le dom) = Some (mkAccount user dom pw) -> logs_on P db w b = true.
Proof. exact C131_relay_lem. Qed.
Print Assumptions C131_relay.
(** At levels 3 to 5 the response repeats what the challenge said about the server: there is no
    name of the target and no channel binding in it but those of the challenge. *)
Theorem C131_bindings : forall cfg P e level user dom pw target c h w rest ch r b, host_le cfg = true -> 3 <= level ->
  made cfg P e level user dom pw target c -> is_bytes w -> challenge_de cfg w = POk rest ch -> valid_challenge ch ->
  is_entropy r -> host_time cfg (e_clock r) -> accepts h ch -> answer cfg P c h (OpAuthenticate r) = OutBytes b ->
  exists a n, authenticate_de cfg b = POk [] a /\ a_nt a = Some (NtV2 n)
    /\ (forall s, In (AvTargetName s) (nt_target_infos n) <-> In (AvTargetName s) (ch_target_infos ch))
    /\ (forall x, In (AvChannelBindings x) (nt_target_infos n) <-> In (AvChannelBindings x) (ch_target_infos ch)).
Proof. exact C131_bindings_lem. Qed.
Print Assumptions C131_bindings.
(** One client, two servers of different names, and the reply to each of them.  The response to
    the first says nothing of the target of the client. *)
Example C131_ex :
  let db u d := if beq_bytes u (utf16le str_User) && beq_bytes d (utf16le str_Domain)
                then Some (mkAccount str_User str_Domain str_Password) else None in
  forall level, level <= 5 ->
  made cfg_debug xor_prims host_env level str_User str_Domain str_Password str_target (toy_client xor_prims level)
  /\ db (utf16le str_User) (utf16le str_Domain) = Some (mkAccount str_User str_Domain str_Password)
  /\ is_entropy sample_entropy /\ host_time cfg_debug (e_clock sample_entropy)
  /\ (forall ch, In ch [sealed_challenge; other_server] ->
      valid_challenge ch /\ is_bytes (challenge_bytes cfg_debug ch) /\ challenge_de cfg_debug (challenge_bytes cfg_debug ch) = POk [] ch
      /\ accepts (sample_history ch) ch
      /\ answer cfg_debug xor_prims (toy_client xor_prims level) (sample_history ch) (OpAuthenticate sample_entropy)
         = OutBytes (toy_reply xor_prims level ch)
      /\ logs_on xor_prims db (challenge_bytes cfg_debug ch) (toy_reply xor_prims level ch) = true)
  /\ ch_target_name sealed_challenge = Some str_Server /\ ch_target_name other_server = Some str_COMPUTER
  /\ (3 <= level -> logs_on xor_prims db (challenge_bytes cfg_debug other_server) (toy_reply xor_prims level sealed_challenge) = false).
Proof. exact C131_ex_lem. Qed.
(** A client made for one target should log its user on at one server: false, servers of two
    names both log on the user of one client. *)
Theorem C131_meant_refuted :
  ~ (forall cfg P e level user dom pw target c, host_le cfg = true -> made cfg P e level user dom pw target c ->
     exists s, forall h w rest ch r b db s', is_bytes w -> challenge_de cfg w = POk rest ch -> valid_challenge ch ->
     is_entropy r -> accepts h ch -> answer cfg P c h (OpAuthenticate r) = OutBytes b ->
     db (utf16le user) (utf16le dom) = Some (mkAccount user dom pw) -> logs_on P db w b = true ->
     ch_target_name ch = Some s' -> s' = s).
Proof. exact C131_meant_refuted_lem. Qed.
Print Assumptions C131_meant_refuted.
