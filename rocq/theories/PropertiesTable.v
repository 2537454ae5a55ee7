(** Property theorems proved in [FactsTable.v]; generated by tools/gen.py. *)
From Verif Require Import Base Nom Unicode Wire Structures Prims Messages Crypto Client Spec SpecBuild SpecCrypto SpecClient SpecServer SpecGuess SpecTable SamplesLabour SpecLmv2 SamplesLmv2 SamplesTiming SamplesPlaces SamplesKeystream SamplesTable Lib Encode Decode RoundTrip Parse Inject Samples FactsEncode FactsDecode FactsBuild DesKey RealPrims DesPerm FactsCrypto SamplesClient History Reply FactsClient FactsReply FactsInject FactsServer FactsLmv2 FactsPlaces FactsGuess FactsTable.

(** * C133: Responses worked out beforehand *)
(** Levels 0 to 2 without EXTENDED_SESSIONSECURITY: the password of whoever replies stands beside
    the NT response in the table, if it is one of the words, whatever the names, the host and the
    draws.  Words beside it have the same response. *)
Theorem C133_table : forall cfg P e level user dom pw ch r b words, host_le cfg = true -> level <= 2 ->
  replies cfg P e level user dom pw ch r b -> ESS (ch_flags ch) = false ->
  (In pw words -> In (field_data b 20, pw) (table P (ch_server_challenge ch) words))
  /\ (forall pw', In (field_data b 20, pw') (table P (ch_server_challenge ch) words) <->
      In pw' words /\ DESL P (NTOWFv1 P pw') (ch_server_challenge ch) = DESL P (NTOWFv1 P pw) (ch_server_challenge ch)).
Proof. exact C133_table_lem. Qed.
Print Assumptions C133_table.
(** In all other replies a response is as old as the client challenge in it.  Given any list of
    LM responses, a list of client challenges that is no longer has all the draws with which any
    client, of whatever name and password, sends one of them. *)
Theorem C133_drawn : forall cfg P ch level T, host_le cfg = true -> 3 <= level \/ ESS (ch_flags ch) = true ->
  exists Z, (length Z <= length T)%nat
    /\ forall e user dom pw r b, replies cfg P e level user dom pw ch r b -> In (field_data b 12) T ->
       In (e_client_challenge r) Z.
Proof. exact C133_drawn_lem. Qed.
Print Assumptions C133_drawn.
(** A table of two words holds what a client of level 1 sends under two draws.  With
    EXTENDED_SESSIONSECURITY, or at level 3, what it sends under one draw is not what it sends
    under the other. *)
Example C133_ex :
  let words := [str_Secret; str_Password] in
  let sc := ch_server_challenge old_challenge in
  (forall level ch r, In (level, ch) [(1, old_challenge); (1, sealed_challenge); (3, sealed_challenge)] ->
     In r [sample_entropy; second_entropy] ->
     replies cfg_debug mixing_prims host_env level str_User str_Domain str_Password ch r (drawn_reply level ch r))
  /\ ESS (ch_flags old_challenge) = false /\ ESS (ch_flags sealed_challenge) = true
  /\ e_client_challenge sample_entropy <> e_client_challenge second_entropy
  /\ (forall r, In r [sample_entropy; second_entropy] ->
        In (field_data (drawn_reply 1 old_challenge r) 20, str_Password) (table mixing_prims sc words)
        /\ ~ In (field_data (drawn_reply 1 old_challenge r) 20, str_Secret) (table mixing_prims sc words))
  /\ (forall level, In level [1; 3] ->
        ~ In (field_data (drawn_reply level sealed_challenge second_entropy) 12)
             [field_data (drawn_reply level sealed_challenge sample_entropy) 12]).
Proof. exact C133_ex_lem. Qed.
(** Given any list of responses, there should be a draw with which the reply is none of them:
    false. *)
Theorem C133_beforehand_refuted :
  ~ (forall cfg P level pw ch T, host_le cfg = true -> valid_challenge ch -> exists cc, is_buffer 8 cc /\
     forall e user dom r b, e_client_challenge r = cc -> replies cfg P e level user dom pw ch r b -> ~ In (field_data b 20) T).
Proof. exact C133_beforehand_refuted_lem. Qed.
Print Assumptions C133_beforehand_refuted.
