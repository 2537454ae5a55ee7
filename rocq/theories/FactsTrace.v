(** Flags agreed to, non-interference, stored keys, equivalent levels. *)
From Coq Require Import ZifyBool ZifyNat ZifyN.
From Verif Require Import Base Nom Unicode Wire Structures Prims Messages Crypto Client Spec SpecBuild SpecCrypto SpecClient SpecTrace Lib Encode Decode RoundTrip Parse Samples FactsEncode FactsDecode FactsBuild DesKey RealPrims FactsCrypto SamplesClient History Reply FactsClient FactsReply Trace.

Ltac Zify.zify_post_hook ::= Z.div_mod_to_equations.

Ltac bare_made := split; [closed_valid|]; split; [closed_valid|]; split; [closed_valid|]; split; [closed_valid|]; vm_compute; reflexivity.

(** ** C57 *)
Lemma C57_reply_flags_lem : forall cfg P e level user dom pw ch r b,
  replies cfg P e level user dom pw ch r b ->
  (3 <= level -> forall i, N.testbit (u32_at b 60) i = existsb (N.eqb i) [0; 2; 23; 30])
  /\ (level <= 2 -> forall i, N.testbit (u32_at b 60) i =
        if existsb (N.eqb i) [2; 23; 30] then true
        else if existsb (N.eqb i) [1; 17] then false else N.testbit (ch_flags ch) i).
Proof.
  intros cfg P e level user dom pw ch r b H. destruct (replies_workstation _ _ _ _ _ _ _ _ _ _ H) as [ws W]. split; intros L i.
  - destruct (replies_v2 _ _ _ _ _ _ _ _ _ _ _ H L W) as (_ & _ & _ & _ & _ & t & _ & _ & V & F & ->).
    destruct (v2_by_offset _ _ _ _ _ _ _ _ _ _ V F) as (_ & _ & _ & _ & _ & _ & -> & _).
    assert (Q : V2_FLAGS = 2 ^ 0 + 2 ^ 2 + 2 ^ 23 + 2 ^ 30) by reflexivity. clear H W V F.
    destruct (N.lt_ge_cases i 32) as [I|I].
    + assert (A : forall n, (n < 32)%nat -> N.testbit V2_FLAGS (N.of_nat n) = existsb (N.eqb (N.of_nat n)) [0; 2; 23; 30]).
      { intros n Hn. do 32 (destruct n as [|n]; [reflexivity|]). lia. }
      specialize (A (N.to_nat i)). rewrite N2Nat.id in A. apply A. lia.
    + transitivity false.
      * apply N.bits_above_log2. apply N.lt_le_trans with 32; [vm_compute; reflexivity|exact I].
      * symmetry. cbn [existsb]. lia.
  - destruct (replies_lm _ _ _ _ _ _ _ _ _ _ H) as [klm K].
    destruct (replies_v1 _ _ _ _ _ _ _ _ _ _ _ _ H L W K) as (_ & VC & _ & V & F & ->).
    destruct (v1_by_offset _ _ _ _ _ _ _ _ _ _ V F) as (_ & _ & _ & _ & _ & _ & -> & _).
    destruct (v1_reply_flags_bits (ch_flags ch)) as [_ B]; [apply VC|]. rewrite B. cbn [existsb].
    destruct (i =? 2), (i =? 23), (i =? 30), (i =? 1), (i =? 17); reflexivity.
Qed.
Lemma C57_agrees_to_offered_lem : forall cfg P e level user dom pw ch r b i, 3 <= level ->
  replies cfg P e level user dom pw ch r b ->
  N.testbit (u32_at b 60) i = true -> In i (level_bits level).
Proof.
  intros cfg P e level user dom pw ch r b i L H B. rewrite (proj1 (C57_reply_flags_lem _ _ _ _ _ _ _ _ _ _ H) L) in B.
  apply existsb_exists in B. destruct B as (j & J & E). apply N.eqb_eq in E. subst j.
  unfold level_bits. replace (level =? 0) with false by lia. replace (level =? 1) with false by lia.
  cbn in J |- *. intuition.
Qed.
Lemma C57_agrees_to_offered_refuted_lem :
  ~ (forall cfg P e level user dom pw ch r b i, replies cfg P e level user dom pw ch r b ->
      N.testbit (u32_at b 60) i = true -> In i (level_bits level)).
Proof.
  intros H. specialize (H cfg_debug real_prims host_env 1 str_User str_Domain str_Password old_challenge sample_entropy
    (sample_reply 1 old_challenge) 23 ltac:(apply sample_replies; [exact old_valid|vm_compute; reflexivity]) ltac:(vm_compute; reflexivity)).
  cbn in H. intuition discriminate.
Qed.
Lemma C57_agrees_to_server_refuted_lem :
  ~ (forall cfg P e level user dom pw ch r b, 3 <= level -> replies cfg P e level user dom pw ch r b ->
      N.testbit (u32_at b 60) 30 = true -> N.testbit (ch_flags ch) 30 = true).
Proof.
  intros H. specialize (H cfg_debug real_prims host_env 3 str_User str_Domain str_Password old_challenge sample_entropy
    (sample_reply 3 old_challenge) ltac:(lia) ltac:(apply sample_replies; [exact old_valid|vm_compute; reflexivity]) ltac:(vm_compute; reflexivity)).
  vm_compute in H. discriminate H.
Qed.
Example C57_ex_lem :
  replies cfg_debug real_prims host_env 3 str_User str_Domain str_Password sealed_challenge sample_entropy (sample_reply 3 sealed_challenge)
  /\ replies cfg_debug real_prims host_env 0 str_User str_Domain str_Password sealed_challenge sample_entropy (sample_reply 0 sealed_challenge)
  /\ u32_at (sample_reply 3 sealed_challenge) 60 = 1082130437
  /\ u32_at (sample_reply 0 sealed_challenge) 60 = N.lor (N.clearbit (ch_flags sealed_challenge) 17) 4.
Proof.
  split; [apply sample_replies; [exact sealed_valid|vm_compute; reflexivity]|].
  split; [apply sample_replies; [exact sealed_valid|vm_compute; reflexivity]|]. split; vm_compute; reflexivity.
Qed.

(** ** C58 *)
Lemma C58_target_irrelevant_lem : forall cfg P e level user dom pw target target' c c',
  made cfg P e level user dom pw target c -> made cfg P e level user dom pw target' c' -> alike cfg P c c'.
Proof.
  intros cfg P e level user dom pw target target' c c' H H'.
  destruct (made_fields _ _ _ _ _ _ _ _ _ H) as (klm & ws & K & W & ->).
  destruct (made_fields _ _ _ _ _ _ _ _ _ H') as (klm' & ws' & K' & W' & ->).
  rewrite K in K'. apply val_inj in K'. subst klm'. rewrite W in W'. apply val_inj in W'. subst ws'.
  apply clients_alike; reflexivity.
Qed.
Lemma C58_negotiate_reveals_no_user_lem : forall cfg P P' e e' level user user' dom pw pw' target target' c c' h h',
  made cfg P e level user dom pw target c -> made cfg P' e' level user' dom pw' target' c' ->
  answer cfg P c h OpNegociate = answer cfg P' c' h' OpNegociate.
Proof.
  intros cfg P P' e e' level user user' dom pw pw' target target' c c' h h' H H'.
  destruct (made_fields _ _ _ _ _ _ _ _ _ H) as (klm & ws & K & W & ->).
  destruct (made_fields _ _ _ _ _ _ _ _ _ H') as (klm' & ws' & K' & W' & ->).
  unfold answer. cbn [step].
  set (c := mkClient _ _ _ _ _ _ ws _ _ _ _). set (c' := mkClient _ _ _ _ _ _ ws' _ _ _ _).
  destruct (run_dress cfg P c h) as (s & b & ->). destruct (run_dress cfg P' c' h') as (s' & b' & ->).
  unfold send_negociate. change (negociate_message (dress c' s' b')) with (negociate_message (dress c s b)).
  destruct (negociate_message (dress c s b)) as [m|]; cbn [obind]; [|reflexivity].
  destruct (negotiate_ser m []) as [[k buf]|]; cbn [obind]; [|reflexivity].
  destruct (slice buf 0 k); reflexivity.
Qed.
(** The user name is not hidden from whoever sees the reply. *)
Lemma C58_reply_reveals_user_lem : forall cfg P e level user dom pw ch r b,
  replies cfg P e level user dom pw ch r b -> field_data b 36 = utf16le user /\ field_data b 28 = utf16le dom.
Proof.
  intros cfg P e level user dom pw ch r b H. destruct (replies_workstation _ _ _ _ _ _ _ _ _ _ H) as [ws W].
  destruct (N.le_gt_cases level 2) as [L|L].
  - destruct (replies_lm _ _ _ _ _ _ _ _ _ _ H) as [klm K].
    destruct (replies_v1 _ _ _ _ _ _ _ _ _ _ _ _ H L W K) as (_ & VC & _ & V & F & ->).
    now destruct (v1_by_offset _ _ _ _ _ _ _ _ _ _ V F) as (_ & _ & -> & -> & _).
  - destruct (replies_v2 _ _ _ _ _ _ _ _ _ _ _ H ltac:(lia) W) as (_ & _ & _ & _ & _ & t & _ & _ & V & F & ->).
    now destruct (v2_by_offset _ _ _ _ _ _ _ _ _ _ V F) as (_ & _ & -> & -> & _).
Qed.
Example C58_ex_lem :
  made cfg_debug real_prims host_env 3 str_User str_Domain str_Password str_target (sample_client 3)
  /\ made cfg_debug real_prims bare_env 3 str_Server str_Domain [] [] (bare_client real_prims 3 str_Server str_Domain [])
  /\ answer cfg_debug real_prims (bare_client real_prims 3 str_Server str_Domain []) [] OpNegociate
     = answer cfg_debug real_prims (sample_client 3) [] OpNegociate
  /\ transcript cfg_debug real_prims (sample_client 3) (sample_history sealed_challenge ++ [OpAuthenticate sample_entropy])
     = [OutPanic PUnreachable; OutUnit; answer cfg_debug real_prims (sample_client 3) [] OpNegociate; OutUnit;
        answer cfg_debug real_prims (sample_client 3) [] OpNegociate; OutPanic PUnreachable; OutUnit; OutUnit;
        OutBytes (sample_reply 3 sealed_challenge)].
Proof.
  split; [apply sample_made|]. split; [|split; vm_compute; reflexivity].
  split; [exact real_prims_ok|]. bare_made.
Qed.

(** ** C59 *)
Lemma session_key_step cfg P c o K : session_key c = Some K -> ~ is_negociate o -> session_key (fst (step cfg P c o)) = Some K.
Proof.
  intros H N. unfold session_key in H. destruct (cl_state c) as [| | |n ch a] eqn:S; try discriminate H.
  destruct o as [|ch'|r]; [now destruct N| |]; cbn [step fst].
  - unfold session_key, recv_challenge. rewrite S. rewrite S. exact H.
  - destruct (send_authenticate cfg P c r) as [[b c']|w] eqn:E; cbn [fst]; [|unfold session_key; now rewrite S].
    rewrite (send_authenticate_ready cfg P c n ch r) in E by (rewrite S; right; eauto).
    destruct (reply cfg P c n ch r) as [a'|]; [|discriminate E]. cbn [obind] in E.
    destruct (authenticate_ser cfg a' []) as [[k buf]|]; [|discriminate E]. cbn [obind] in E.
    apply val_inj in E. injection E as _ <-. unfold set_authenticated_state.
    change (cl_state (with_buffer c buf)) with (cl_state c). rewrite S. unfold session_key.
    change (cl_state (with_buffer c buf)) with (cl_state c). now rewrite S.
Qed.
Lemma C59_key_kept_lem : forall cfg P c h h' K, session_key (run cfg P c h) = Some K ->
  Forall (fun o => ~ is_negociate o) h' -> session_key (run cfg P c (h ++ h')) = Some K.
Proof.
  intros cfg P c h h' K H F. unfold run in *. rewrite fold_left_app. revert H. generalize (fold_left (fun c o => fst (step cfg P c o)) h c).
  induction F as [|o h' N F IH]; intros c' H; [exact H|]. cbn [fold_left]. apply IH. now apply session_key_step.
Qed.
Lemma C59_key_discarded_lem : forall cfg P e level user dom pw target c h h',
  made cfg P e level user dom pw target c -> negotiable level dom ->
  Forall (fun o => match o with OpAuthenticate _ => False | _ => True end) h' ->
  session_key (run cfg P c (h ++ OpNegociate :: h')) = None.
Proof.
  intros cfg P e level user dom pw target c h h' M N F.
  pose proof (made_fresh _ _ _ _ _ _ _ _ _ M) as Fr. destruct (made_level _ _ _ _ _ _ _ _ _ M) as [L D]. rewrite <- L, <- D in N.
  assert (Z : exists m, cl_state (run cfg P c (h ++ OpNegociate :: h')) = StNegotiateSent m
                        \/ exists ch, cl_state (run cfg P c (h ++ OpNegociate :: h')) = StChallengeReceived m ch).
  { induction h' as [|o h' IH] using rev_ind.
    - eexists. left. apply (run_states cfg P c Fr); [exact N|]. now apply awaiting_snoc.
    - apply Forall_app in F as [F O]. apply Forall_inv in O. destruct (IH F) as (m & S).
      replace (h ++ OpNegociate :: h' ++ [o]) with ((h ++ OpNegociate :: h') ++ [o]) by now rewrite <- app_assoc.
      set (h1 := h ++ OpNegociate :: h') in *. destruct o as [|ch|r]; [| |now destruct O].
      + eexists. left. apply (run_states cfg P c Fr); [exact N|]. now apply awaiting_snoc.
      + rewrite run_snoc. cbn [step fst]. exists m. right. unfold recv_challenge. destruct S as [S|[ch' S]]; rewrite S.
        * eexists. reflexivity.
        * eexists. exact S. }
  destruct Z as (m & [Z|[ch Z]]); unfold session_key; now rewrite Z.
Qed.
Lemma C59_key_of_last_message_refuted_lem :
  ~ (forall cfg P e level user dom pw target c h ch r b,
      made cfg P e level user dom pw target c -> accepts h ch -> valid_challenge ch -> is_entropy r ->
      key_exchange (ch_flags ch) = true -> answer cfg P c h (OpAuthenticate r) = OutBytes b ->
      session_key (run cfg P c (h ++ [OpAuthenticate r])) = Some (e_session_key r)).
Proof.
  intros H.
  set (r2 := mkEntropy (repeat 1 8) (repeat 2 16) 0%Z).
  set (h2 := sample_history sealed_challenge ++ [OpAuthenticate sample_entropy]).
  specialize (H cfg_debug real_prims host_env 3 str_User str_Domain str_Password str_target (sample_client 3) h2 sealed_challenge r2).
  specialize (H (match answer cfg_debug real_prims (sample_client 3) h2 (OpAuthenticate r2) with OutBytes b => b | _ => [] end)).
  specialize (H (sample_made 3)).
  specialize (H ltac:(apply accepts_snoc; apply sample_accepts) sealed_valid ltac:(closed_valid) eq_refl ltac:(vm_compute; reflexivity)).
  vm_compute in H. discriminate H.
Qed.
Example C59_ex_lem :
  session_key (run cfg_debug real_prims (sample_client 3) (sample_history sealed_challenge ++ [OpAuthenticate sample_entropy]))
    = Some (repeat 85 16)
  /\ session_key (run cfg_debug real_prims (sample_client 3)
       (sample_history sealed_challenge ++ [OpAuthenticate sample_entropy; OpNegociate])) = None
  /\ negotiable 3 str_Domain.
Proof. split; [vm_compute; reflexivity|]. split; [vm_compute; reflexivity|]. apply sample_negotiable. lia. Qed.

(** ** C60 *)
Lemma C60_levels_3_to_5_lem : forall cfg P e level level' user dom pw target target' c c',
  3 <= level <= 5 -> 3 <= level' <= 5 ->
  made cfg P e level user dom pw target c -> made cfg P e level' user dom pw target' c' -> alike cfg P c c'.
Proof.
  intros cfg P e level level' user dom pw target target' c c' L L' H H'.
  destruct (made_fields _ _ _ _ _ _ _ _ _ H) as (klm & ws & K & W & ->).
  destruct (made_fields _ _ _ _ _ _ _ _ _ H') as (klm' & ws' & K' & W' & ->).
  rewrite K in K'. apply val_inj in K'. subst klm'. rewrite W in W'. apply val_inj in W'. subst ws'.
  assert (C : level = 3 \/ level = 4 \/ level = 5) by lia. assert (C' : level' = 3 \/ level' = 4 \/ level' = 5) by lia.
  apply clients_alike; try reflexivity;
    destruct C as [->|[->| ->]], C' as [->|[->| ->]]; reflexivity.
Qed.
Lemma build_v1 cfg P c r : cl_level c <= 2 -> build_authenticate cfg P c r = send_authenticate_ntlmv1 P c r.
Proof.
  intros H. unfold build_authenticate. assert (L : cl_level c = 0 \/ cl_level c = 1 \/ cl_level c = 2) by lia.
  destruct L as [->|[->| ->]]; reflexivity.
Qed.
Lemma C60_levels_1_and_2_lem : forall cfg P e user dom pw target target' c c' h h' ch r,
  made cfg P e 1 user dom pw target c -> made cfg P e 2 user dom pw target' c' ->
  accepts h ch -> accepts h' ch -> negotiable 1 dom ->
  answer cfg P c h (OpAuthenticate r) = answer cfg P c' h' (OpAuthenticate r).
Proof.
  intros cfg P e user dom pw target target' c c' h h' ch r H H' A A' N.
  pose proof (made_fresh _ _ _ _ _ _ _ _ _ H) as F. pose proof (made_fresh _ _ _ _ _ _ _ _ _ H') as F'.
  destruct (made_fields _ _ _ _ _ _ _ _ _ H) as (klm & ws & K & W & ->).
  destruct (made_fields _ _ _ _ _ _ _ _ _ H') as (klm' & ws' & K' & W' & ->).
  rewrite K in K'. apply val_inj in K'. subst klm'. rewrite W in W'. apply val_inj in W'. subst ws'.
  assert (N' : negotiable 2 dom) by (destruct N; split; [lia|assumption]).
  rewrite (answer_accepts cfg P _ F h ch r N A), (answer_accepts cfg P _ F' h' ch r N' A').
  reflexivity.
Qed.
Lemma C60_levels_1_and_2_refuted_lem :
  ~ (forall cfg P e user dom pw target c c',
      made cfg P e 1 user dom pw target c -> made cfg P e 2 user dom pw target c' -> alike cfg P c c').
Proof.
  intros H. specialize (H cfg_debug real_prims host_env str_User str_Domain str_Password str_target _ _ (sample_made 1) (sample_made 2) [OpNegociate]).
  vm_compute in H. discriminate H.
Qed.
Example C60_ex_lem :
  made cfg_debug real_prims host_env 3 str_User str_Domain str_Password str_target (sample_client 3)
  /\ made cfg_debug real_prims host_env 5 str_User str_Domain str_Password str_target (sample_client 5)
  /\ sample_client 3 <> sample_client 5
  /\ answer cfg_debug real_prims (sample_client 1) (sample_history sealed_challenge) (OpAuthenticate sample_entropy)
     = OutBytes (sample_reply 2 sealed_challenge).
Proof.
  split; [apply sample_made|]. split; [apply sample_made|]. split; [|vm_compute; reflexivity].
  intros E. apply (f_equal cl_level) in E. vm_compute in E. discriminate E.
Qed.

(** ** C62 *)
Lemma blunt_prims_ok : prims_ok blunt_prims.
Proof.
  destruct real_prims_ok. constructor; cbn [p_md4 p_md5 p_hmac_md5 p_des p_rc4_stream p_upper blunt_prims]; auto.
  intros m. apply (zeros_buffer 16).
Qed.
Lemma C62_nt_hash_suffices_lem : forall cfg P e e' level user dom pw pw' target target' c c' ws, 1 <= level ->
  made cfg P e level user dom pw target c -> made cfg P e' level user dom pw' target' c' ->
  workstation_name P e ws -> workstation_name P e' ws ->
  ntowfv1 cfg P pw = ntowfv1 cfg P pw' -> alike cfg P c c'.
Proof.
  intros cfg P e e' level user dom pw pw' target target' c c' ws L H H' W W' E.
  destruct (made_workstation _ _ _ _ _ _ _ _ _ _ H W) as [Z _]. destruct (made_workstation _ _ _ _ _ _ _ _ _ _ H' W') as [Z' _].
  destruct (made_fields _ _ _ _ _ _ _ _ _ H) as (klm & ws1 & _ & _ & ->).
  destruct (made_fields _ _ _ _ _ _ _ _ _ H') as (klm' & ws2 & _ & _ & ->).
  cbn [cl_workstation] in Z, Z'. subst ws1 ws2. rewrite E. clear E H H' W W'.
  apply clients_alike; try reflexivity. intros s b r.
  destruct (N.le_gt_cases level 2) as [L2|L2].
  - rewrite !build_v1 by exact L2. unfold send_authenticate_ntlmv1, get_challenge.
    cbn [dress with_state with_buffer cl_state cl_nt_hash cl_lm_hash cl_level cl_domain cl_username].
    replace (negb (level =? 0)) with true by lia. reflexivity.
  - unfold build_authenticate. cbn [dress with_state with_buffer cl_level].
    destruct level as [|[[[]|[]|]|[[]|[]|]|]]; try lia; reflexivity.
Qed.
(** At level 0 the LM hash counts too: shown for primitives whose MD4 is constant
    (they satisfy the contract of the primitives). *)
Lemma C62_nt_hash_suffices_refuted_lem :
  ~ (forall cfg P e level user dom pw pw' target c c',
      made cfg P e level user dom pw target c -> made cfg P e level user dom pw' target c' ->
      ntowfv1 cfg P pw = ntowfv1 cfg P pw' -> alike cfg P c c').
Proof.
  intros H. specialize (H cfg_debug blunt_prims bare_env 0 str_User str_Domain str_Password [] []).
  specialize (H (bare_client blunt_prims 0 str_User str_Domain str_Password) (bare_client blunt_prims 0 str_User str_Domain [])
                ltac:(split; [exact blunt_prims_ok|bare_made]) ltac:(split; [exact blunt_prims_ok|bare_made]) eq_refl
                [OpNegociate; OpRecvChallenge old_challenge; OpAuthenticate sample_entropy]).
  vm_compute in H. discriminate H.
Qed.
Example C62_ex_lem :
  made cfg_debug blunt_prims bare_env 2 str_User str_Domain str_Password [] (bare_client blunt_prims 2 str_User str_Domain str_Password)
  /\ workstation_name blunt_prims bare_env None
  /\ ntowfv1 cfg_debug blunt_prims str_Password = ntowfv1 cfg_debug blunt_prims str_User
  /\ lmowfv1 blunt_prims str_Password <> lmowfv1 blunt_prims str_User.
Proof.
  split; [split; [exact blunt_prims_ok|bare_made]|]. split; [reflexivity|]. split; [reflexivity|]. vm_compute. discriminate.
Qed.
