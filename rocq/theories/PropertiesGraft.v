(** Property theorems proved in [FactsGraft.v]; generated by tools/gen.py. *)
From Verif Require Import Base Nom Unicode Wire Structures Prims Messages Crypto Client Spec SpecBuild SpecCrypto SpecClient SpecServer SamplesLabour SpecLmv2 SamplesLmv2 Lib Encode Decode RoundTrip Parse Samples FactsEncode FactsDecode FactsBuild DesKey RealPrims FactsCrypto SamplesClient History Reply FactsClient FactsReply FactsServer SpecPlaces SamplesPlaces FactsPlaces SpecGraft SamplesGraft FactsGraft.

(** * C137: Answers with and without extended session security *)
(** Levels 0 to 2: the NT response with EXTENDED_SESSIONSECURITY is the one without it, of any
    client with the password, to another challenge, which is known to whoever sees the messages. *)
Theorem C137_same : forall cfg P e e' level level' user user' dom dom' pw ch ch' r r' b b', level <= 2 -> level' <= 2 -> host_le cfg = true ->
  replies cfg P e level user dom pw ch r b -> replies cfg P e' level' user' dom' pw ch' r' b' ->
  ESS (ch_flags ch) = true -> ESS (ch_flags ch') = false ->
  ch_server_challenge ch' = sub (p_md5 P (ch_server_challenge ch ++ sub (field_data b 12) 0 8)) 0 8 ->
  field_data b 20 = field_data b' 20.
Proof. exact C137_same_lem. Qed.
Print Assumptions C137_same.
(** So a server that sent [w], with EXTENDED_SESSIONSECURITY, logs a user on whose client was
    asked without it: somebody chooses the client challenge, asks the client to answer the 8
    bytes that follow from it, and puts it where the LM response is.  Nothing else of the reply
    is changed. *)
Theorem C137_grafted : forall cfg P e level user dom pw ch r b db w cc, level <= 2 -> host_le cfg = true ->
  replies cfg P e level user dom pw ch r b -> ESS (ch_flags ch) = false -> ESS (u32_at w 20) = true -> is_buffer 8 cc ->
  ch_server_challenge ch = sub (p_md5 P (sub w 24 8 ++ cc)) 0 8 ->
  db (utf16le user) (utf16le dom) = Some (mkAccount user dom pw) ->
  server P db w (graft b cc) <> None /\ len (graft b cc) = len b /\ (forall i, apart b (graft b cc) i -> within i 80 24).
Proof. exact C137_grafted_lem. Qed.
Print Assumptions C137_grafted.
(** The other way, a server without it takes the reply as it is, if the 8 bytes are its challenge. *)
Theorem C137_back : forall cfg P e level user dom pw ch r b db w, level <= 2 -> host_le cfg = true ->
  replies cfg P e level user dom pw ch r b -> ESS (ch_flags ch) = true -> ESS (u32_at w 20) = false ->
  sub w 24 8 = sub (p_md5 P (ch_server_challenge ch ++ sub (field_data b 12) 0 8)) 0 8 ->
  db (utf16le user) (utf16le dom) = Some (mkAccount user dom pw) -> server P db w b <> None.
Proof. exact C137_back_lem. Qed.
Print Assumptions C137_back.
(** Clients of levels 0 and 1, a server whose challenge is not the one they answer *)
Example C137_ex :
  Forall (fun level => replies cfg_debug turning_prims host_env level str_User str_Domain str_Password asked sample_entropy (asked_reply level)
    /\ server turning_prims one_account secure_sent (asked_reply level) = None
    /\ server turning_prims one_account secure_sent (graft (asked_reply level) chosen) <> None) [0; 1]
  /\ ESS (ch_flags asked) = false /\ ESS (u32_at secure_sent 20) = true /\ is_buffer 8 chosen
  /\ ch_server_challenge asked <> sub secure_sent 24 8
  /\ ch_server_challenge asked = sub (p_md5 turning_prims (sub secure_sent 24 8 ++ chosen)) 0 8.
Proof. exact C137_ex_lem. Qed.
(** Who sends a challenge with EXTENDED_SESSIONSECURITY should log on only users whose clients
    were asked for it, if nothing but the LM response was changed on the way: false. *)
Theorem C137_asked_refuted :
  ~ (forall cfg P e level user dom pw ch r b b' db w, level <= 2 -> host_le cfg = true -> replies cfg P e level user dom pw ch r b ->
     db (utf16le user) (utf16le dom) = Some (mkAccount user dom pw) ->
     len b' = len b -> (forall i, apart b b' i -> within i 80 24) ->
     ESS (u32_at w 20) = true -> server P db w b' <> None -> ESS (ch_flags ch) = true).
Proof. exact C137_asked_refuted_lem. Qed.
Print Assumptions C137_asked_refuted.
