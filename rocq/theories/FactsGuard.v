(** Protections asked for and not insisted on; anonymous logon. *)
From Coq Require Import ZifyBool ZifyNat ZifyN.
From Verif Require Import Base Nom Unicode Wire Structures Prims Messages Crypto Client Spec SpecBuild SpecCrypto SpecClient SpecTrace Lib Encode Decode RoundTrip Parse Samples FactsEncode FactsDecode FactsBuild DesKey RealPrims FactsCrypto SamplesClient History Reply FactsClient FactsReply Trace FactsTrace.
Ltac Zify.zify_post_hook ::= Z.div_mod_to_equations.

(** ** C88 *)
Lemma answers_iff cfg P e level user dom pw target c h ch r : made cfg P e level user dom pw target c ->
  is_entropy r -> accepts h ch -> valid_challenge ch -> negotiable level dom ->
  ((exists b, answer cfg P c h (OpAuthenticate r) = OutBytes b) <-> reply_fits cfg level user dom (cl_workstation c) ch r).
Proof.
  intros M R A V G. pose proof (proj1 (C23_no_other_challenge_lem cfg P e level user dom pw target c h r M)) as U.
  assert (X : forall ch', accepts h ch' -> valid_challenge ch').
  { intros ch' A'. rewrite (U ch ch' A A'). exact V. }
  pose proof (made_workstation_exists _ _ _ _ _ _ _ _ _ M) as W.
  destruct (C24_panics_exactly_lem cfg P e level user dom pw target c h r _ M W R X) as [_ Q]. rewrite Q. split.
  - intros [_ [ch' [A' F]]]. rewrite (U ch ch' A A') in F. exact F.
  - intros F. split; [exact G|]. exists ch. split; assumption.
Qed.
(** Levels 0 to 2: whether there is a reply does not depend on the challenge. *)
Lemma C88_any_challenge_lem : forall cfg P e level user dom pw target c h h' ch ch' r r',
  made cfg P e level user dom pw target c -> level <= 2 -> negotiable level dom ->
  accepts h ch -> accepts h' ch' -> valid_challenge ch -> valid_challenge ch' -> is_entropy r -> is_entropy r' ->
  (exists b, answer cfg P c h (OpAuthenticate r) = OutBytes b) ->
  exists b, answer cfg P c h' (OpAuthenticate r') = OutBytes b.
Proof.
  intros cfg P e level user dom pw target c h h' ch ch' r r' M L G A A' V V' R R' H.
  apply (answers_iff _ _ _ _ _ _ _ _ _ _ _ _ M R A V G) in H.
  apply (answers_iff _ _ _ _ _ _ _ _ _ _ _ _ M R' A' V' G).
  destruct H as (F1 & F2 & F3 & _). split; [exact F1|]. split; [exact F2|]. split; [exact F3|]. intros L'. lia.
Qed.
(** All levels: it does not depend on the flags the server agrees to. *)
Lemma C88_any_flags_lem : forall cfg P e level user dom pw target c h h' ch f r,
  made cfg P e level user dom pw target c -> negotiable level dom ->
  accepts h ch -> accepts h' (with_flags ch f) -> valid_challenge ch -> is_u32 f -> is_entropy r ->
  (exists b, answer cfg P c h (OpAuthenticate r) = OutBytes b) ->
  exists b, answer cfg P c h' (OpAuthenticate r) = OutBytes b.
Proof.
  intros cfg P e level user dom pw target c h h' ch f r M G A A' V F R H.
  assert (V' : valid_challenge (with_flags ch f)).
  { destruct V as (V1 & V2 & V3 & V4 & V5). repeat split; try assumption; try apply V3. }
  apply (answers_iff _ _ _ _ _ _ _ _ _ _ _ _ M R A V G) in H.
  apply (answers_iff _ _ _ _ _ _ _ _ _ _ _ _ M R A' V' G). exact H.
Qed.
(** A server, or whoever stands between, that drops EXTENDED_SESSIONSECURITY and chooses the challenge gets the
    plain response to it at levels 0 to 2: nothing of the client's own goes into it. *)
Lemma C88_plain_response_lem : forall cfg P e level user dom pw ch r b klm, host_le cfg = true -> level <= 2 ->
  lmowfv1 P pw = Val klm -> replies cfg P e level user dom pw ch r b -> ESS (ch_flags ch) = false ->
  field_data b 20 = DESL P (NTOWFv1 P pw) (ch_server_challenge ch)
  /\ (1 <= level -> field_data b 12 = DESL P (NTOWFv1 P pw) (ch_server_challenge ch))
  /\ (level = 0 -> field_data b 12 = DESL P klm (ch_server_challenge ch)).
Proof.
  intros cfg P e level user dom pw ch r b klm E L K H S.
  destruct (replies_workstation _ _ _ _ _ _ _ _ _ _ H) as [ws W].
  destruct (C32_ntlmv1_response_lem _ _ _ _ _ _ _ _ _ _ _ _ E L W K H) as (A & B & _).
  rewrite A, B. unfold v1_lm_response, v1_nt_response. rewrite S. split; [reflexivity|]. split.
  - intros Q. replace (1 <=? level) with true by lia. reflexivity.
  - intros ->. reflexivity.
Qed.
(** So with one chosen challenge one table of responses serves for all accounts, hosts, levels and times. *)
Lemma C88_same_response_lem : forall cfg P e e' level level' user user' dom dom' pw ch ch' r r' b b',
  host_le cfg = true -> level <= 2 -> level' <= 2 ->
  replies cfg P e level user dom pw ch r b -> replies cfg P e' level' user' dom' pw ch' r' b' ->
  ESS (ch_flags ch) = false -> ESS (ch_flags ch') = false -> ch_server_challenge ch = ch_server_challenge ch' ->
  field_data b 20 = field_data b' 20.
Proof.
  intros cfg P e e' level level' user user' dom dom' pw ch ch' r r' b b' E L L' H H' S S' Q.
  destruct (replies_lm _ _ _ _ _ _ _ _ _ _ H) as [klm K].
  rewrite (proj1 (C88_plain_response_lem _ _ _ _ _ _ _ _ _ _ _ E L K H S)), Q.
  symmetry. exact (proj1 (C88_plain_response_lem _ _ _ _ _ _ _ _ _ _ _ E L' K H' S')).
Qed.
(** At levels 3 to 5 the client challenge is part of what is authenticated, whatever the server agrees to. *)
Lemma C88_levels_3_to_5_lem : forall cfg P e level user dom pw ch r b, host_le cfg = true -> 3 <= level ->
  replies cfg P e level user dom pw ch r b ->
  field_data b 12 = p_hmac_md5 P (NTOWFv2 P pw user dom) (ch_server_challenge ch ++ e_client_challenge r) ++ e_client_challenge r.
Proof.
  intros cfg P e level user dom pw ch r b E L H. destruct (replies_workstation _ _ _ _ _ _ _ _ _ _ H) as [ws W].
  destruct (C27_ntlmv2_response_lem _ _ _ _ _ _ _ _ _ _ _ E L W H) as (t & _ & A & _). exact A.
Qed.
Lemma C88_insists_refuted_lem :
  ~ (forall cfg P e level user dom pw ch r b, In 19 (level_bits level) -> replies cfg P e level user dom pw ch r b ->
      ESS (ch_flags ch) = true).
Proof.
  intros H. specialize (H cfg_debug real_prims host_env 1 str_User str_Domain str_Password old_challenge sample_entropy
    (sample_reply 1 old_challenge) ltac:(cbn; auto 20)
    ltac:(apply sample_replies; [exact old_valid|vm_compute; reflexivity])).
  vm_compute in H. discriminate H.
Qed.
Example C88_ex_lem :
  replies cfg_debug real_prims host_env 2 str_User str_Domain str_Password old_challenge sample_entropy (sample_reply 2 old_challenge)
  /\ ESS (ch_flags old_challenge) = false /\ In 19 (level_bits 2)
  /\ made cfg_debug real_prims host_env 2 str_User str_Domain str_Password str_target (sample_client 2)
  /\ accepts (sample_history sealed_challenge) sealed_challenge
  /\ accepts (sample_history (with_flags sealed_challenge 1)) (with_flags sealed_challenge 1)
  /\ (exists b, answer cfg_debug real_prims (sample_client 2) (sample_history sealed_challenge) (OpAuthenticate sample_entropy) = OutBytes b).
Proof.
  split; [apply sample_replies; [exact old_valid|vm_compute; reflexivity]|].
  split; [reflexivity|]. split; [cbn; auto 20|]. split; [apply sample_made|]. split; [apply sample_accepts|]. split; [apply sample_accepts|].
  eexists. vm_compute. reflexivity.
Qed.

(** ** C89 *)
(** Every reply carries responses of full length, whatever the account: none is anonymous. *)
Lemma C89_never_anonymous_lem : forall cfg P e level user dom pw ch r b, replies cfg P e level user dom pw ch r b ->
  len (field_data b 12) = 24 /\ 24 <= len (field_data b 20)
  /\ (3 <= level -> N.testbit (u32_at b 60) 11 = false)
  /\ (level <= 2 -> N.testbit (u32_at b 60) 11 = N.testbit (ch_flags ch) 11).
Proof.
  intros cfg P e level user dom pw ch r b H. destruct (C57_reply_flags_lem _ _ _ _ _ _ _ _ _ _ H) as [F1 F2].
  destruct (replies_workstation _ _ _ _ _ _ _ _ _ _ H) as [ws W].
  destruct (N.le_gt_cases level 2) as [L|L].
  - destruct (replies_lm _ _ _ _ _ _ _ _ _ _ H) as [klm K].
    destruct (replies_v1 _ _ _ _ _ _ _ _ _ _ _ _ H L W K) as (HP & VC & HR & V & F & ->).
    destruct (v1_by_offset _ _ _ _ _ _ _ _ _ _ V F) as (A & B & _). rewrite A, B.
    assert (Hlm : is_buffer 16 klm) by (eapply lmowfv1_buffer; eassumption).
    assert (Hnt : is_buffer 16 (ntowfv1 cfg P pw)) by (apply ntowfv1_buffer; exact HP).
    split; [|split; [|split; intros Q; [lia|rewrite (F2 Q); reflexivity]]].
    + unfold v1_lm. match goal with |- context [v1_lm_response P ?f ?a ?b ?c ?d ?g] =>
        pose proof (v1_lm_buffer P f a b c d g HP Hnt Hlm) as Z end.
      unfold len. rewrite (proj1 (Z ltac:(apply VC) ltac:(apply HR))). reflexivity.
    + pose proof (v1_nt_buffer P (ch_flags ch) (ntowfv1 cfg P pw) (ch_server_challenge ch) (e_client_challenge r) HP Hnt) as Z.
      unfold len. rewrite (proj1 (Z ltac:(apply VC))). lia.
  - assert (L' : 3 <= level) by lia.
    destruct (replies_v2 _ _ _ _ _ _ _ _ _ _ _ H L' W) as (HP & VC & HR & _ & _ & t & T & TV & V & F & ->).
    destruct (v2_by_offset _ _ _ _ _ _ _ _ _ _ V F) as (A & B & _). rewrite A.
    split; [|split; [|split; intros Q; [rewrite (F1 Q); reflexivity|lia]]].
    + unfold v2_lm_response, len. rewrite app_length, (proj1 (hmac_buffer P _ _ HP)).
      assert (Z : length (e_client_challenge r) = 8%nat) by apply HR. rewrite Z. reflexivity.
    + apply (f_equal len) in B. unfold v2_temp in B. rewrite !len_app in B.
      change (len (zeros 4)) with 4 in B. change (len (zeros 6)) with 6 in B. change (len [1; 1]) with 2 in B.
      assert (Z1 : len (e_client_challenge r) = 8) by (unfold len; rewrite (proj1 (proj1 HR)); reflexivity).
      assert (Z2 : len (filetime_bytes t) = 8) by reflexivity. lia.
Qed.
(** MS-NLMP 3.1.5.1.2: a client without user name and password sends an empty NT response and a single zero byte. *)
Lemma C89_anonymous_refuted_lem : ~ (forall cfg P e level dom ch r b, level <= 5 ->
  replies cfg P e level [] dom [] ch r b -> field_data b 20 = [] /\ field_data b 12 = [0]).
Proof.
  intros H.
  assert (R : exists b, replies cfg_debug real_prims bare_env 3 [] [] [] sealed_challenge sample_entropy b).
  { eexists. exists [], (bare_client real_prims 3 [] [] []), (sample_history sealed_challenge).
    split; [split; [exact real_prims_ok|]; bare_made|]. split; [exact sealed_valid|]. split; [exact sample_entropy_ok|].
    split; [apply sample_accepts|]. vm_compute. reflexivity. }
  destruct R as [b R]. pose proof (C89_never_anonymous_lem _ _ _ _ _ _ _ _ _ _ R) as (_ & Q & _).
  assert (L5 : 3 <= 5) by lia.
  destruct (H _ _ _ _ _ _ _ _ L5 R) as [E _]. rewrite E in Q. vm_compute in Q. apply Q. reflexivity.
Qed.
Example C89_ex_lem : exists b, replies cfg_debug real_prims bare_env 4 [] [] [] sealed_challenge sample_entropy b /\ len (field_data b 20) = 150.
Proof.
  eexists. split.
  - exists [], (bare_client real_prims 4 [] [] []), (sample_history sealed_challenge).
    split; [split; [exact real_prims_ok|]; bare_made|]. split; [exact sealed_valid|]. split; [exact sample_entropy_ok|].
    split; [apply sample_accepts|]. vm_compute. reflexivity.
  - vm_compute. reflexivity.
Qed.
