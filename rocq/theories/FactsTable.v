(** Responses worked out before a client is asked. *)
From Coq Require Import ZifyBool ZifyNat ZifyN.
From Verif Require Import Base Nom Unicode Wire Structures Prims Messages Crypto Client Spec SpecBuild SpecCrypto SpecClient SpecServer SpecGuess SpecTable SamplesLabour SpecLmv2 SamplesLmv2 SamplesTiming SamplesPlaces SamplesKeystream SamplesTable Lib Encode Decode RoundTrip Parse Inject Samples FactsEncode FactsDecode FactsBuild DesKey RealPrims DesPerm FactsCrypto SamplesClient History Reply FactsClient FactsReply FactsInject FactsServer FactsLmv2 FactsPlaces FactsGuess.

Ltac Zify.zify_post_hook ::= Z.div_mod_to_equations.

(** ** C133 *)
(** Levels 0 to 2 without EXTENDED_SESSIONSECURITY: the password of whoever replies stands beside
    the NT response in the table, if it is one of the words, whatever the names, the host and the
    draws.  Words beside it have the same response. *)
Lemma C133_table_lem : forall cfg P e level user dom pw ch r b words, host_le cfg = true -> level <= 2 ->
  replies cfg P e level user dom pw ch r b -> ESS (ch_flags ch) = false ->
  (In pw words -> In (field_data b 20, pw) (table P (ch_server_challenge ch) words))
  /\ (forall pw', In (field_data b 20, pw') (table P (ch_server_challenge ch) words) <->
      In pw' words /\ DESL P (NTOWFv1 P pw') (ch_server_challenge ch) = DESL P (NTOWFv1 P pw) (ch_server_challenge ch)).
Proof.
  intros cfg P e level user dom pw ch r b words HLE L H X.
  destruct (old_fits _ _ _ _ _ _ _ _ _ _ HLE L H) as [_ E]. unfold v1_nt_response in E. rewrite X in E.
  assert (Y : forall pw', In (field_data b 20, pw') (table P (ch_server_challenge ch) words) <->
      In pw' words /\ DESL P (NTOWFv1 P pw') (ch_server_challenge ch) = DESL P (NTOWFv1 P pw) (ch_server_challenge ch)).
  { intros pw'. unfold table. rewrite in_map_iff, E. split.
    - intros (x & Q & I). injection Q as Q1 Q2. subst x. now split.
    - intros [I Q]. exists pw'. split; [now rewrite Q|exact I]. }
  split; [|exact Y]. intros I. apply Y. now split.
Qed.
(** In all other replies a response is as old as the client challenge in it.  Given any list of
    LM responses, a list of client challenges that is no longer has all the draws with which any
    client, of whatever name and password, sends one of them. *)
Lemma C133_drawn_lem : forall cfg P ch level T, host_le cfg = true -> 3 <= level \/ ESS (ch_flags ch) = true ->
  exists Z, (length Z <= length T)%nat
    /\ forall e user dom pw r b, replies cfg P e level user dom pw ch r b -> In (field_data b 12) T ->
       In (e_client_challenge r) Z.
Proof.
  intros cfg P ch level T HLE O. exists (map (fun t => sub t (if 3 <=? level then 16 else 0) 8) T).
  split; [rewrite map_length; apply le_n|]. intros e user dom pw r b H I. apply in_map_iff. exists (field_data b 12).
  split; [|exact I]. destruct (C64_client_challenge_visible_lem _ _ _ _ _ _ _ _ _ _ H) as [A B].
  destruct (3 <=? level) eqn:L.
  - apply A. lia.
  - apply B; [lia|]. destruct O; [lia|assumption].
Qed.
(** A table of two words holds what a client of level 1 sends under two draws.  With
    EXTENDED_SESSIONSECURITY, or at level 3, what it sends under one draw is not what it sends
    under the other. *)
Example C133_ex_lem :
  let words := [str_Secret; str_Password] in
  let sc := ch_server_challenge old_challenge in
  (forall level ch r, In (level, ch) [(1, old_challenge); (1, sealed_challenge); (3, sealed_challenge)] ->
     In r [sample_entropy; second_entropy] ->
     replies cfg_debug mixing_prims host_env level str_User str_Domain str_Password ch r (drawn_reply level ch r))
  /\ ESS (ch_flags old_challenge) = false /\ ESS (ch_flags sealed_challenge) = true
  /\ e_client_challenge sample_entropy <> e_client_challenge second_entropy
  /\ (forall r, In r [sample_entropy; second_entropy] ->
        In (field_data (drawn_reply 1 old_challenge r) 20, str_Password) (table mixing_prims sc words)
        /\ ~ In (field_data (drawn_reply 1 old_challenge r) 20, str_Secret) (table mixing_prims sc words))
  /\ (forall level, In level [1; 3] ->
        ~ In (field_data (drawn_reply level sealed_challenge second_entropy) 12)
             [field_data (drawn_reply level sealed_challenge sample_entropy) 12]).
Proof.
  cbv zeta.
  split.
  { intros level ch r I J. exists str_target, (mixing_client level str_Password), (sample_history ch).
    destruct I as [I|[I|[I|[]]]]; injection I as <- <-; destruct J as [<-|[<-|[]]];
      (split; [split; [exact mixing_ok|]; do 4 (split; [closed_valid|]); vm_compute; reflexivity|]);
      (split; [exact old_valid||exact sealed_valid|]);
      (split; [exact sample_entropy_ok||closed_valid|]); (split; [apply sample_accepts|]); vm_compute; reflexivity. }
  split; [reflexivity|]. split; [reflexivity|]. split; [discriminate|]. split.
  - intros r [<-|[<-|[]]]; (split; [vm_compute; auto|vm_compute; intuition discriminate]).
  - intros level [<-|[<-|[]]]; vm_compute; intuition discriminate.
Qed.
(** Given any list of responses, there should be a draw with which the reply is none of them:
    false. *)
Lemma C133_beforehand_refuted_lem :
  ~ (forall cfg P level pw ch T, host_le cfg = true -> valid_challenge ch -> exists cc, is_buffer 8 cc /\
     forall e user dom r b, e_client_challenge r = cc -> replies cfg P e level user dom pw ch r b -> ~ In (field_data b 20) T).
Proof.
  intros H.
  destruct (H cfg_debug mixing_prims 1 str_Password old_challenge [DESL mixing_prims (NTOWFv1 mixing_prims str_Password) (ch_server_challenge old_challenge)] eq_refl old_valid)
    as (cc & B & X).
  set (r := mkEntropy cc (e_session_key sample_entropy) (e_clock sample_entropy)).
  assert (R : exists b, replies cfg_debug mixing_prims host_env 1 str_User str_Domain str_Password old_challenge r b).
  { eexists. exists str_target, (mixing_client 1 str_Password), (sample_history old_challenge). split.
    { split; [exact mixing_ok|]. do 4 (split; [closed_valid|]). vm_compute. reflexivity. }
    split; [exact old_valid|]. split; [split; [exact B|apply sample_entropy_ok]|]. split; [apply sample_accepts|]. vm_compute. reflexivity. }
  destruct R as [b R]. apply (X _ _ _ r b eq_refl R). left.
  destruct (old_fits cfg_debug _ _ 1 _ _ _ _ _ _ eq_refl ltac:(lia) R) as [_ ->]. reflexivity.
Qed.
