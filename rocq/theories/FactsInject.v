(** Different messages are different on the wire; what replies tell. *)
From Coq Require Import ZifyBool ZifyNat ZifyN.
From Verif Require Import Base Nom Unicode Wire Structures Prims Messages Crypto Client Spec SpecBuild SpecCrypto SpecClient SpecTrace Lib Encode Decode RoundTrip Parse Inject Samples FactsEncode FactsDecode FactsBuild DesKey RealPrims FactsCrypto SamplesClient History Reply FactsClient FactsReply.

Ltac Zify.zify_post_hook ::= Z.div_mod_to_equations.

(** ** C61 *)
Lemma C61_encoders_injective_lem : forall cfg,
  (forall n m b, valid_negotiate n -> valid_negotiate m ->
     serialize cfg (negotiate_ser n) = Val b -> serialize cfg (negotiate_ser m) = Val b -> n = m)
  /\ (forall c d b, valid_challenge c -> valid_challenge d ->
     serialize cfg (challenge_ser cfg c) = Val b -> serialize cfg (challenge_ser cfg d) = Val b -> c = d)
  /\ (forall a d b, valid_authenticate a -> valid_authenticate d ->
     serialize cfg (authenticate_ser cfg a) = Val b -> serialize cfg (authenticate_ser cfg d) = Val b ->
     same_lm (a_lm a) (a_lm d) /\ a_nt a = a_nt d /\ a_domain a = a_domain d /\ a_user a = a_user d
     /\ a_workstation a = a_workstation d /\ a_session_key a = a_session_key d
     /\ a_flags a = a_flags d /\ a_version a = a_version d /\ a_mic a = a_mic d).
Proof.
  intros cfg. split; [|split].
  - intros n m b V W E E'. rewrite negotiate_serialize in E, E' by assumption.
    destruct (fitsb (negotiate_fields n)) eqn:F; [|discriminate E]. destruct (fitsb (negotiate_fields m)) eqn:F'; [|discriminate E'].
    apply fitsb_fits in F, F'. apply val_inj in E, E'. subst b. now apply negotiate_bytes_inj.
  - intros n m b V W E E'. rewrite challenge_serialize in E, E' by assumption.
    destruct (fitsb (challenge_fields cfg n)) eqn:F; [|discriminate E]. destruct (fitsb (challenge_fields cfg m)) eqn:F'; [|discriminate E'].
    apply fitsb_fits in F, F'. apply val_inj in E, E'. subst b. now apply (challenge_bytes_inj cfg).
  - intros n m b V W E E'. rewrite authenticate_serialize in E, E' by assumption.
    destruct (fitsb (authenticate_fields cfg n)) eqn:F; [|discriminate E]. destruct (fitsb (authenticate_fields cfg m)) eqn:F'; [|discriminate E'].
    apply fitsb_fits in F, F'. apply val_inj in E, E'. subst b. now apply (authenticate_bytes_inj cfg).
Qed.
Lemma C61_authenticate_injective_refuted_lem :
  ~ (forall cfg a d b, valid_authenticate a -> valid_authenticate d ->
     serialize cfg (authenticate_ser cfg a) = Val b -> serialize cfg (authenticate_ser cfg d) = Val b -> a_lm a = a_lm d).
Proof.
  intros H. specialize (H cfg_debug sample_authenticate (with_lm sample_authenticate (Some (LmV1 (repeat 3 16 ++ repeat 170 8)))) _
    ltac:(closed_valid) ltac:(closed_valid) eq_refl eq_refl). discriminate H.
Qed.
Lemma C61_parts_injective_lem : forall cfg,
  (forall v w b, valid_version v -> valid_version w -> serialize cfg (version_ser v) = Val b -> serialize cfg (version_ser w) = Val b -> v = w)
  /\ (forall t u b, valid_filetime t -> valid_filetime u -> serialize cfg (filetime_ser t) = Val b -> serialize cfg (filetime_ser u) = Val b -> t = u)
  /\ (forall s t b, is_string s -> is_string t -> serialize cfg (unicode_ser s) = Val b -> serialize cfg (unicode_ser t) = Val b -> s = t)
  /\ (forall s t b, is_string s -> is_string t -> serialize cfg (oem_ser s) = Val b -> serialize cfg (oem_ser t) = Val b -> s = t)
  /\ (forall l m b, Forall valid_av_pair l -> Forall valid_av_pair m ->
        serialize cfg (ser_vec (av_pair_ser cfg) l) = Val b -> serialize cfg (ser_vec (av_pair_ser cfg) m) = Val b -> l = m).
Proof.
  intros cfg. split; [|split; [|split; [|split]]].
  - intros v w b V W E E'. rewrite (writes_serialize _ _ _ (writes_version v)) in E. rewrite (writes_serialize _ _ _ (writes_version w)) in E'.
    apply version_bytes_inj; congruence.
  - intros v w b V W E E'. rewrite (writes_serialize _ _ _ (writes_filetime v)) in E. rewrite (writes_serialize _ _ _ (writes_filetime w)) in E'.
    apply filetime_bytes_inj; congruence.
  - intros v w b V W E E'. rewrite (writes_serialize _ _ _ (writes_unicode v)) in E. rewrite (writes_serialize _ _ _ (writes_unicode w)) in E'.
    apply utf16le_inj; congruence.
  - intros v w b V W E E'. rewrite (writes_serialize _ _ _ (writes_oem v)) in E. rewrite (writes_serialize _ _ _ (writes_oem w)) in E'.
    apply utf8_inj; congruence.
  - intros l m b V W E E'.
    rewrite (serialize_spec cfg _ (av_list_bytes cfg l) (av_strings_fit cfg l)) in E by (apply av_vec_spec, V).
    rewrite (serialize_spec cfg _ (av_list_bytes cfg m) (av_strings_fit cfg m)) in E' by (apply av_vec_spec, W).
    destruct (av_strings_fit cfg l) eqn:F; [|discriminate E]. destruct (av_strings_fit cfg m) eqn:F'; [|discriminate E'].
    apply (av_list_bytes_inj cfg); congruence.
Qed.
Example C61_ex_lem : valid_authenticate sample_authenticate
  /\ (exists b, serialize cfg_debug (authenticate_ser cfg_debug sample_authenticate) = Val b)
  /\ (exists b, serialize cfg_debug (challenge_ser cfg_debug sample_challenge) = Val b) /\ valid_challenge sample_challenge
  /\ (exists b, serialize cfg_debug (negotiate_ser sample_negotiate) = Val b) /\ valid_negotiate sample_negotiate.
Proof.
  split; [closed_valid|]. split; [eexists; vm_compute; reflexivity|]. split; [eexists; vm_compute; reflexivity|].
  split; [closed_valid|]. split; [eexists; vm_compute; reflexivity|]. closed_valid.
Qed.

(** ** C65 *)
(** Any reply is the encoding of a message with these names. *)
Lemma replies_message cfg P e level user dom pw ch r b ws : replies cfg P e level user dom pw ch r b -> workstation_name P e ws ->
  exists a, valid_authenticate a /\ fits (authenticate_fields cfg a) /\ b = authenticate_bytes cfg a
    /\ a_user a = Some user /\ a_domain a = Some dom /\ a_workstation a = ws
    /\ match a_nt a with Some (NtV1 _) => level <= 2 | Some (NtV2 _) => 3 <= level | None => False end.
Proof.
  intros H W. destruct (N.le_gt_cases level 2) as [L|L].
  - destruct (replies_lm _ _ _ _ _ _ _ _ _ _ H) as [klm K].
    destruct (replies_v1 _ _ _ _ _ _ _ _ _ _ _ _ H L W K) as (_ & VC & _ & V & F & E). eexists. split; [exact V|]. split; [exact F|].
    split; [exact E|]. cbn. auto.
  - destruct (replies_v2 _ _ _ _ _ _ _ _ _ _ _ H ltac:(lia) W) as (_ & _ & _ & _ & _ & t & _ & _ & V & F & E).
    eexists. split; [exact V|]. split; [exact F|]. split; [exact E|]. cbn. repeat split. lia.
Qed.
Lemma C65_accounts_told_apart_lem : forall cfg P P' e e' level level' user user' dom dom' pw pw' ch ch' r r' b ws ws',
  replies cfg P e level user dom pw ch r b -> replies cfg P' e' level' user' dom' pw' ch' r' b ->
  workstation_name P e ws -> workstation_name P' e' ws' ->
  user = user' /\ dom = dom' /\ ws = ws' /\ (level <= 2 <-> level' <= 2).
Proof.
  intros cfg P P' e e' level level' user user' dom dom' pw pw' ch ch' r r' b ws ws' H H' W W'.
  destruct (replies_message _ _ _ _ _ _ _ _ _ _ _ H W) as (a & V & F & -> & U & D & S & N).
  destruct (replies_message _ _ _ _ _ _ _ _ _ _ _ H' W') as (a' & V' & F' & E & U' & D' & S' & N').
  destruct (authenticate_bytes_inj cfg a a' V V' F F' E) as (_ & EN & ED & EU & EW & _).
  rewrite U, U' in EU. rewrite D, D' in ED. rewrite S, S' in EW. injection EU as EU. injection ED as ED.
  repeat split; auto; rewrite <- EN in N'; destruct (a_nt a) as [[]|]; lia.
Qed.
Lemma C65_levels_told_apart_refuted_lem :
  ~ (forall cfg P e level level' user dom pw ch r b,
      replies cfg P e level user dom pw ch r b -> replies cfg P e level' user dom pw ch r b -> level = level').
Proof.
  intros H. specialize (H cfg_debug real_prims host_env 3 5 str_User str_Domain str_Password sealed_challenge sample_entropy (sample_reply 3 sealed_challenge)).
  assert (E : sample_reply 3 sealed_challenge = sample_reply 5 sealed_challenge) by (vm_compute; reflexivity).
  specialize (H ltac:(apply sample_replies; [exact sealed_valid|vm_compute; reflexivity])).
  rewrite E in H. specialize (H ltac:(apply sample_replies; [exact sealed_valid|vm_compute; reflexivity])). discriminate H.
Qed.
Example C65_ex_lem :
  replies cfg_debug real_prims host_env 3 str_User str_Domain str_Password sealed_challenge sample_entropy (sample_reply 3 sealed_challenge)
  /\ workstation_name real_prims host_env (Some str_COMPUTER).
Proof. split; [apply sample_replies; [exact sealed_valid|vm_compute; reflexivity]|reflexivity]. Qed.

(** ** C64 *)
Lemma RC4K_inj P k a b : prims_ok P -> RC4K P k a = RC4K P k b -> a = b.
Proof. intros HP E. rewrite <- (RC4K_involutive P k a HP), E. now apply RC4K_involutive. Qed.
Lemma C64_client_challenge_visible_lem : forall cfg P e level user dom pw ch r b,
  replies cfg P e level user dom pw ch r b ->
  (3 <= level -> sub (field_data b 12) 16 8 = e_client_challenge r /\ sub (field_data b 20) 16 8 = e_client_challenge r)
  /\ (level <= 2 -> ESS (ch_flags ch) = true -> sub (field_data b 12) 0 8 = e_client_challenge r).
Proof.
  intros cfg P e level user dom pw ch r b H. destruct (replies_workstation _ _ _ _ _ _ _ _ _ _ H) as [ws W]. split; intros L.
  - destruct (replies_v2 _ _ _ _ _ _ _ _ _ _ _ H L W) as (HP & _ & [R _] & _ & _ & t & _ & _ & V & F & ->).
    destruct (v2_by_offset _ _ _ _ _ _ _ _ _ _ V F) as (E1 & E2 & _). rewrite E1. split.
    + unfold v2_lm_response. rewrite <- (app_nil_r (_ ++ _)), <- app_assoc. apply sub_app.
      * exact (len_buffer 16 _ (hmac_buffer P _ _ HP)).
      * exact (len_buffer 8 _ R).
    + unfold v2_temp in E2. rewrite !app_assoc in E2. apply app_inv_tail in E2. rewrite E2, <- !app_assoc.
      rewrite (app_assoc (zeros 6)), (app_assoc [1; 1]). apply sub_app; [reflexivity|exact (len_buffer 8 _ R)].
  - intros S. destruct (replies_lm _ _ _ _ _ _ _ _ _ _ H) as [klm K].
    destruct (replies_v1 _ _ _ _ _ _ _ _ _ _ _ _ H L W K) as (_ & VC & [R _] & V & F & ->).
    destruct (v1_by_offset _ _ _ _ _ _ _ _ _ _ V F) as (-> & _). unfold v1_lm, v1_lm_response. rewrite S.
    apply (sub_app [] _ (zeros 16)); [reflexivity|exact (len_buffer 8 _ R)].
Qed.
(** With extended session security (always at levels 3 to 5), replies made from
    different random numbers are different. *)
Lemma C64_replies_fresh_lem : forall cfg P e level user dom pw ch r r' b,
  (3 <= level \/ ESS (ch_flags ch) = true) ->
  replies cfg P e level user dom pw ch r b -> replies cfg P e level user dom pw ch r' b ->
  e_client_challenge r = e_client_challenge r'
  /\ (key_exchange (ch_flags ch) = true -> e_session_key r = e_session_key r').
Proof.
  intros cfg P e level user dom pw ch r r' b HL H H'.
  destruct (C64_client_challenge_visible_lem _ _ _ _ _ _ _ _ _ _ H) as [A B].
  destruct (C64_client_challenge_visible_lem _ _ _ _ _ _ _ _ _ _ H') as [A' B'].
  destruct (replies_workstation _ _ _ _ _ _ _ _ _ _ H) as [ws W].
  destruct (N.le_gt_cases level 2) as [L|L].
  - assert (S : ESS (ch_flags ch) = true) by (destruct HL; [lia|assumption]).
    assert (CC : e_client_challenge r = e_client_challenge r') by (rewrite <- (B L S); apply (B' L S)).
    split; [exact CC|]. intros X. destruct (replies_lm _ _ _ _ _ _ _ _ _ _ H) as [klm K].
    destruct (replies_v1 _ _ _ _ _ _ _ _ _ _ _ _ H L W K) as (HP & _ & _ & V & F & E).
    destruct (replies_v1 _ _ _ _ _ _ _ _ _ _ _ _ H' L W K) as (_ & _ & _ & V' & F' & E').
    destruct (v1_by_offset _ _ _ _ _ _ _ _ _ _ V F) as (_ & _ & _ & _ & _ & G & _).
    destruct (v1_by_offset _ _ _ _ _ _ _ _ _ _ V' F') as (_ & _ & _ & _ & _ & G' & _).
    rewrite <- E in G. rewrite <- E' in G'. rewrite G in G'. unfold encrypted in G'. rewrite X in G'.
    replace (v1_lm P level (ntowfv1 cfg P pw) klm ch r') with (v1_lm P level (ntowfv1 cfg P pw) klm ch r) in G'
      by (unfold v1_lm; now rewrite CC).
    now apply RC4K_inj in G'.
  - assert (L3 : 3 <= level) by lia.
    assert (CC : e_client_challenge r = e_client_challenge r').
    { destruct (A L3) as [A1 _]. destruct (A' L3) as [A1' _]. congruence. }
    split; [exact CC|]. intros X.
    destruct (replies_v2 _ _ _ _ _ _ _ _ _ _ _ H L3 W) as (HP & _ & _ & _ & _ & t & T & _ & V & F & E).
    destruct (replies_v2 _ _ _ _ _ _ _ _ _ _ _ H' L3 W) as (_ & _ & _ & _ & _ & t' & T' & _ & V' & F' & E').
    destruct (authenticate_bytes_inj cfg _ _ V V' F F' ltac:(congruence)) as (_ & EN & _ & _ & _ & EK & _).
    cbn in EN, EK. injection EN as ET _. subst t'. injection EK as EK.
    unfold encrypted in EK. rewrite X in EK.
    replace (v2_kek cfg P (ntowfv2 cfg P user (ntowfv1 cfg P pw) dom) ch r' t)
      with (v2_kek cfg P (ntowfv2 cfg P user (ntowfv1 cfg P pw) dom) ch r t) in EK by (unfold v2_kek; now rewrite CC).
    now apply RC4K_inj in EK.
Qed.
(** Without it the reply is a function of the challenge alone: it can be replayed. *)
Lemma C64_old_replies_repeat_lem : forall cfg P e level user dom pw ch r r' b b', level <= 2 ->
  ESS (ch_flags ch) = false -> key_exchange (ch_flags ch) = false ->
  replies cfg P e level user dom pw ch r b -> replies cfg P e level user dom pw ch r' b' -> b = b'.
Proof.
  intros cfg P e level user dom pw ch r r' b b' L S X H H'. destruct (replies_workstation _ _ _ _ _ _ _ _ _ _ H) as [ws W].
  destruct (replies_lm _ _ _ _ _ _ _ _ _ _ H) as [klm K].
  destruct (replies_v1 _ _ _ _ _ _ _ _ _ _ _ _ H L W K) as (HP & _ & _ & V & F & ->).
  destruct (replies_v1 _ _ _ _ _ _ _ _ _ _ _ _ H' L W K) as (_ & _ & _ & V' & F' & ->).
  assert (EL : v1_lm P level (ntowfv1 cfg P pw) klm ch r = v1_lm P level (ntowfv1 cfg P pw) klm ch r')
    by (unfold v1_lm, v1_lm_response, v1_nt_response; now rewrite S).
  unfold v1_message, encrypted, exported, v1_nt_response. rewrite EL, X, S. reflexivity.
Qed.
Lemma C64_replies_fresh_refuted_lem :
  ~ (forall cfg P e level user dom pw ch r r' b,
      replies cfg P e level user dom pw ch r b -> replies cfg P e level user dom pw ch r' b ->
      e_client_challenge r = e_client_challenge r').
Proof.
  intros H. set (r2 := mkEntropy (repeat 1 8) (repeat 2 16) 0%Z).
  specialize (H cfg_debug real_prims host_env 0 str_User str_Domain str_Password old_challenge sample_entropy r2 (sample_reply 0 old_challenge)).
  specialize (H ltac:(apply sample_replies; [exact old_valid|vm_compute; reflexivity])).
  assert (R : replies cfg_debug real_prims host_env 0 str_User str_Domain str_Password old_challenge r2 (sample_reply 0 old_challenge)).
  { exists str_target, (sample_client 0), (sample_history old_challenge). split; [apply sample_made|]. split; [exact old_valid|].
    split; [closed_valid|]. split; [apply sample_accepts|]. vm_compute. reflexivity. }
  specialize (H R). discriminate H.
Qed.
Example C64_ex_lem :
  replies cfg_debug real_prims host_env 1 str_User str_Domain str_Password sealed_challenge sample_entropy (sample_reply 1 sealed_challenge)
  /\ ESS (ch_flags sealed_challenge) = true /\ key_exchange (ch_flags sealed_challenge) = true
  /\ replies cfg_debug real_prims host_env 3 str_User str_Domain str_Password old_challenge sample_entropy (sample_reply 3 old_challenge)
  /\ replies cfg_debug real_prims host_env 1 str_User str_Domain str_Password old_challenge sample_entropy (sample_reply 1 old_challenge)
  /\ ESS (ch_flags old_challenge) = false /\ key_exchange (ch_flags old_challenge) = false.
Proof.
  split; [apply sample_replies; [exact sealed_valid|vm_compute; reflexivity]|]. split; [reflexivity|]. split; [reflexivity|].
  split; [apply sample_replies; [exact old_valid|vm_compute; reflexivity]|].
  split; [apply sample_replies; [exact old_valid|vm_compute; reflexivity]|]. split; reflexivity.
Qed.

(** ** C66 *)
Lemma C66_challenge_bound_lem : forall cfg P e level user dom pw ch ch' r r' b nb, 3 <= level -> host_le cfg = true ->
  replies cfg P e level user dom pw ch r b -> replies cfg P e level user dom pw ch' r' b ->
  key_exchange (ch_flags ch) = key_exchange (ch_flags ch') ->
  (exists target c, made cfg P e level user dom pw target c /\ answer cfg P c [] OpNegociate = OutBytes nb) ->
  ch = ch'
  \/ (let cc := e_client_challenge r in
      collision P (NTOWFv2 P pw user dom) (ch_server_challenge ch ++ cc) (ch_server_challenge ch' ++ cc))
  \/ exists K d, collision P K (nb ++ challenge_bytes cfg ch ++ d) (nb ++ challenge_bytes cfg ch' ++ d)
       /\ sub b 64 16 = p_hmac_md5 P K (nb ++ challenge_bytes cfg ch ++ d)
       /\ (forall o, In o [12; 20; 28; 36; 52] -> field_data d o = field_data b o)
       /\ field_data d 44 = [] /\ sub d 64 16 = zeros 16.
Proof.
  intros cfg P e level user dom pw ch ch' r r' b nb L HLE H H' X (target & c & M & A).
  destruct (replies_workstation _ _ _ _ _ _ _ _ _ _ H) as [ws W].
  destruct (replies_v2 _ _ _ _ _ _ _ _ _ _ _ H L W) as (HP & VC & R & N & (_ & _ & _ & RF) & t & T & VT & V & F & E).
  destruct (replies_v2 _ _ _ _ _ _ _ _ _ _ _ H' L W) as (_ & VC' & R' & _ & (_ & _ & _ & RF') & t' & T' & VT' & V' & F' & E').
  destruct (RF L) as (FC & _). destruct (RF' L) as (FC' & _). clear RF RF'.
  set (k2 := ntowfv2 cfg P user (ntowfv1 cfg P pw) dom) in *.
  set (n := neg_message level dom) in *.
  assert (NB : nb = negotiate_bytes n).
  { unfold answer in A. cbn [step] in A. pose proof (made_fresh _ _ _ _ _ _ _ _ _ M) as Fr.
    destruct (made_level _ _ _ _ _ _ _ _ _ M) as [Lv Dm].
    rewrite (send_neg_run cfg P c Fr []) in A by now rewrite Lv, Dm. cbn [snd] in A. rewrite Lv, Dm in A. injection A as A. now symmetry. }
  pose proof (authenticate_bytes_inj cfg _ _ V V' F F' ltac:(congruence)) as (EL & EN & _ & _ & _ & EK & _ & _ & EM).
  cbn in EN. injection EN as ET EC EI. subst t'.
  change (a_session_key _) with (Some (encrypted P (ch_flags ch) (v2_kek cfg P k2 ch r t) (e_session_key r))) in EK at 1.
  change (a_session_key _) with (Some (encrypted P (ch_flags ch') (v2_kek cfg P k2 ch' r' t) (e_session_key r'))) in EK.
  injection EK as EK.
  cbn in EL. injection EL as EL. apply app_inj_r in EL as [EL _]; [|congruence].
  rewrite <- EC in EL.
  destruct (list_eq_dec N.eq_dec (ch_server_challenge ch ++ e_client_challenge r) (ch_server_challenge ch' ++ e_client_challenge r)) as [ES|ES].
  2:{ right; left. split; [exact ES|]. destruct (C36_nt_hashes_lem cfg P pw user dom HLE) as [_ K2]. fold k2 in K2. rewrite <- K2. exact EL. }
  apply app_inv_tail in ES.
  assert (KK : v2_kek cfg P k2 ch r t = v2_kek cfg P k2 ch' r' t) by (unfold v2_kek; now rewrite ES, EC, EI).
  assert (KX : exported (ch_flags ch) (v2_kek cfg P k2 ch r t) (e_session_key r) = exported (ch_flags ch') (v2_kek cfg P k2 ch' r' t) (e_session_key r')).
  { unfold exported, encrypted in *. rewrite <- X in EK |- *. rewrite <- KK in EK |- *.
    destruct (key_exchange (ch_flags ch)); [now apply RC4K_inj in EK|reflexivity]. }
  set (K := exported (ch_flags ch) (v2_kek cfg P k2 ch r t) (e_session_key r)) in *.
  set (d := v2_draft cfg P k2 user dom ch r t).
  assert (DD : v2_draft cfg P k2 user dom ch' r' t = d).
  { unfold d, v2_draft. fold K. rewrite <- KX, <- EK, <- ES, <- EC, <- EI. reflexivity. }
  change (a_mic (v2_message cfg P k2 user dom ws n ch r t)) with (p_hmac_md5 P K (v2_mac_input cfg n ch d)) in EM.
  change (a_mic (v2_message cfg P k2 user dom ws n ch' r' t))
    with (p_hmac_md5 P (exported (ch_flags ch') (v2_kek cfg P k2 ch' r' t) (e_session_key r')) (v2_mac_input cfg n ch' (v2_draft cfg P k2 user dom ch' r' t))) in EM.
  rewrite DD, <- KX in EM. unfold v2_mac_input in EM.
  destruct (list_eq_dec N.eq_dec (challenge_bytes cfg ch) (challenge_bytes cfg ch')) as [EB|EB].
  { left. now apply (challenge_bytes_inj cfg). }
  right; right. exists K, (authenticate_bytes cfg d). rewrite NB.
  split; [split; [|exact EM]; intros Q; apply EB; apply app_inv_head in Q; now apply app_inv_tail in Q|].
  destruct (v2_by_offset _ _ _ _ _ _ _ _ _ _ V F) as (H1 & H2 & H3 & H4 & H5 & H6 & H7 & H8).
  rewrite <- E in *. split; [exact H8|].
  assert (Vd : valid_authenticate d) by (apply v2_draft_valid; try assumption; apply M).
  assert (Fd : fits (authenticate_fields cfg d)).
  { apply (v2_fields_fit cfg P k2 user dom None ch r t); auto.
    apply (v2_fields_fit cfg P k2 user dom ws ch r t) in F; auto. destruct F as ((R1 & R2 & _) & R5). split; [|exact R5].
    split; [exact R1|]. split; [exact R2|]. cbn. lia. }
  destruct (authenticate_by_offset cfg d Vd Fd) as (D1 & D2 & D3 & D4 & D5 & D6 & D7 & D8).
  destruct (authenticate_by_offset cfg _ V F) as (A1 & A2 & A3 & A4 & A5 & A6 & A7 & A8). rewrite <- E in *.
  split; [|split; [exact D5|exact (D8 eq_refl)]].
  intros o [<-|[<-|[<-|[<-|[<-|[]]]]]].
  - rewrite A1. exact D1.
  - rewrite A2. exact D2.
  - rewrite A3. exact D3.
  - rewrite A4. exact D4.
  - rewrite A6. exact D6.
Qed.
(** What is bound is the decoded challenge, not the bytes received. *)
Lemma C66_received_bytes_bound_refuted_lem :
  ~ (forall cfg P e level user dom pw w w' ch ch' r r' b, 3 <= level -> host_le cfg = true -> is_bytes w -> is_bytes w' ->
      challenge_de cfg w = POk [] ch -> challenge_de cfg w' = POk [] ch' ->
      replies cfg P e level user dom pw ch r b -> replies cfg P e level user dom pw ch' r' b -> w = w').
Proof.
  intros H. set (w := challenge_bytes cfg_debug sealed_challenge). set (w' := sub w 0 32 ++ repeat 7 8 ++ skipn 40 w).
  specialize (H cfg_debug real_prims host_env 3 str_User str_Domain str_Password w w' sealed_challenge sealed_challenge sample_entropy sample_entropy
    (sample_reply 3 sealed_challenge) ltac:(lia) eq_refl ltac:(closed_valid) ltac:(closed_valid)
    ltac:(vm_compute; reflexivity) ltac:(vm_compute; reflexivity)
    ltac:(apply sample_replies; [exact sealed_valid|vm_compute; reflexivity])
    ltac:(apply sample_replies; [exact sealed_valid|vm_compute; reflexivity])).
  vm_compute in H. discriminate H.
Qed.
Example C66_ex_lem :
  replies cfg_debug real_prims host_env 3 str_User str_Domain str_Password sealed_challenge sample_entropy (sample_reply 3 sealed_challenge)
  /\ (exists target c, made cfg_debug real_prims host_env 3 str_User str_Domain str_Password target c
        /\ answer cfg_debug real_prims c [] OpNegociate
           = OutBytes (match answer cfg_debug real_prims (sample_client 3) [] OpNegociate with OutBytes b => b | _ => [] end)).
Proof.
  split; [apply sample_replies; [exact sealed_valid|vm_compute; reflexivity]|].
  exists str_target, (sample_client 3). split; [apply sample_made|]. vm_compute. reflexivity.
Qed.
