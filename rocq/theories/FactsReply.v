(** Facts about the replies of the client. *)
From Coq Require Import ZifyBool ZifyNat ZifyN.
From Verif Require Import Base Nom Unicode Wire Structures Prims Messages Crypto Client Spec SpecBuild SpecCrypto SpecClient Lib Encode Decode RoundTrip Parse Samples FactsEncode FactsDecode FactsBuild DesKey RealPrims FactsCrypto SamplesClient History Reply FactsClient.

Ltac Zify.zify_post_hook ::= Z.div_mod_to_equations.

(** ** C27 *)
Lemma v2_by_offset cfg P k2 user dom ws n ch r t :
  let a := v2_message cfg P k2 user dom ws n ch r t in
  valid_authenticate a -> fits (authenticate_fields cfg a) ->
  let b := authenticate_bytes cfg a in
  field_data b 12 = v2_lm_response P k2 (ch_server_challenge ch) (e_client_challenge r)
  /\ field_data b 20 ++ zeros 4 = v2_temp cfg t (e_client_challenge r) (ch_target_infos ch)
  /\ field_data b 28 = utf16le dom /\ field_data b 36 = utf16le user
  /\ field_data b 44 = content (opt_map utf16le ws)
  /\ field_data b 52 = encrypted P (ch_flags ch) (v2_kek cfg P k2 ch r t) (e_session_key r)
  /\ u32_at b 60 = V2_FLAGS
  /\ sub b 64 16 = p_hmac_md5 P (exported (ch_flags ch) (v2_kek cfg P k2 ch r t) (e_session_key r))
                     (v2_mac_input cfg n ch (v2_draft cfg P k2 user dom ch r t)).
Proof.
  intros a V F b. destruct (authenticate_by_offset cfg a V F) as (H1 & H2 & H3 & H4 & H5 & H6 & H7 & H8).
  fold b in H1, H2, H3, H4, H5, H6, H7, H8.
  split; [exact H1|]. split.
  { rewrite H2. change (content (opt_map (nt_bytes cfg) (a_nt a)))
      with (ntv2_bytes cfg (mkNtv2 t (e_client_challenge r) (ch_target_infos ch))).
    exact (v2_temp_eq cfg t (e_client_challenge r) (ch_target_infos ch)). }
  split; [exact H3|]. split; [exact H4|]. split; [exact H5|]. split; [exact H6|]. split; [exact H7|].
  exact (H8 eq_refl).
Qed.
(** The fields of every reply at levels 3 to 5, at their offsets in the message. *)
Lemma C27_ntlmv2_response_lem : forall cfg P e level user dom pw ws ch r b, host_le cfg = true -> 3 <= level ->
  workstation_name P e ws -> replies cfg P e level user dom pw ch r b ->
  exists t, response_time ch r = Some t
    /\ field_data b 12 = v2_lm_response P (NTOWFv2 P pw user dom) (ch_server_challenge ch) (e_client_challenge r)
    /\ field_data b 20 = [1; 1] ++ zeros 6 ++ filetime_bytes t ++ e_client_challenge r ++ zeros 4
                         ++ av_list_bytes cfg (ch_target_infos ch)
    /\ field_data b 28 = utf16le dom /\ field_data b 36 = utf16le user
    /\ field_data b 44 = content (opt_map utf16le ws).
Proof.
  intros cfg P e level user dom pw ws ch r b Hle L Hw H.
  destruct (replies_v2 _ _ _ _ _ _ _ _ _ _ _ H L Hw) as (HP & Hv & Hr & N & RF & t & T1 & T2 & V & F & ->).
  destruct (v2_by_offset _ _ _ _ _ _ _ _ _ _ V F) as (H1 & H2 & H3 & H4 & H5 & _).
  exists t. split; [exact T1|]. rewrite H1. destruct (C36_nt_hashes_lem cfg P pw user dom Hle) as [_ E].
  rewrite E in *. split; [reflexivity|]. split; [|auto].
  apply (app_inv_tail (zeros 4)). rewrite H2. unfold v2_temp. rewrite <- !app_assoc. reflexivity.
Qed.
(** Which time: the first timestamp of the target information, whatever
    follows it; without any, the clock. *)
Lemma C27_response_time_lem : forall ch r,
  (forall l1 t l2, ch_target_infos ch = l1 ++ AvTimestamp t :: l2 -> Forall (fun a => timestamp_of a = None) l1 ->
     response_time ch r = Some t)
  /\ (Forall (fun a => timestamp_of a = None) (ch_target_infos ch) -> forall t,
     filetime_try_from (e_clock r) = inl t -> response_time ch r = Some t).
Proof.
  intros ch r. split.
  - intros l1 t l2 E H. unfold response_time. rewrite E. clear E.
    induction H as [|x l Hx _ IH]; [reflexivity|]. cbn [app first_some]. now rewrite Hx.
  - intros H t Ht. unfold response_time. replace (first_some timestamp_of (ch_target_infos ch)) with (@None filetime).
    + now rewrite Ht.
    + induction H as [|x l Hx _ IH]; [reflexivity|]. cbn [first_some]. now rewrite Hx.
Qed.
Example C27_ex_lem :
  replies cfg_debug real_prims host_env 5 str_User str_Domain str_Password sealed_challenge sample_entropy
    (sample_reply 5 sealed_challenge)
  /\ workstation_name real_prims host_env (Some str_COMPUTER)
  /\ response_time sealed_challenge sample_entropy = Some (mkFileTime 4096 30000000)
  /\ len (field_data (sample_reply 5 sealed_challenge) 20) = 150
  /\ field_data (sample_reply 5 sealed_challenge) 12
     = [134; 195; 80; 151; 172; 156; 236; 16; 37; 84; 118; 74; 87; 204; 204; 25; 170; 170; 170; 170; 170; 170; 170; 170].
Proof.
  split; [apply sample_replies; [exact sealed_valid|vm_compute; reflexivity]|]. split; [exact sample_workstation|].
  split; [reflexivity|]. split; vm_compute; reflexivity.
Qed.

(** ** C28 *)
(** What is sent is the second part only: never NTProofStr || temp, whatever
    the key and the server challenge. *)
Lemma C28_proof_missing_lem : forall cfg P e level user dom pw ws ch r b, 3 <= level ->
  workstation_name P e ws -> replies cfg P e level user dom pw ch r b ->
  forall k sc t, response_time ch r = Some t ->
  field_data b 20 <> v2_nt_response P k sc (v2_temp cfg t (e_client_challenge r) (ch_target_infos ch))
  /\ field_data b 20 ++ zeros 4 = v2_temp cfg t (e_client_challenge r) (ch_target_infos ch).
Proof.
  intros cfg P e level user dom pw ws ch r b L Hw H k sc t Ht.
  destruct (replies_v2 _ _ _ _ _ _ _ _ _ _ _ H L Hw) as (HP & Hv & Hr & N & RF & t' & T1 & T2 & V & F & ->).
  rewrite Ht in T1. apply some_inj in T1. subst t'.
  destruct (v2_by_offset _ _ _ _ _ _ _ _ _ _ V F) as (H1 & H2 & _). split; [|exact H2].
  intros E. apply (f_equal (fun x => len (x ++ zeros 4))) in E. rewrite H2 in E.
  unfold v2_nt_response in E. rewrite !len_app in E.
  pose proof (len_buffer _ _ (hmac_buffer P k (sc ++ v2_temp cfg t (e_client_challenge r) (ch_target_infos ch)) HP)) as B.
  unfold v2_nt_proof in E. rewrite B in E. lia.
Qed.
(** The NT response is the same for every account and password: it proves nothing. *)
Lemma C28_password_irrelevant_lem : forall cfg P P' e e' level level' user user' dom dom' pw pw' ch r b b',
  3 <= level -> 3 <= level' ->
  replies cfg P e level user dom pw ch r b -> replies cfg P' e' level' user' dom' pw' ch r b' ->
  field_data b 20 = field_data b' 20.
Proof.
  intros cfg P P' e e' level level' user user' dom dom' pw pw' ch r b b' L L' H H'.
  destruct (replies_workstation _ _ _ _ _ _ _ _ _ _ H) as [ws W].
  destruct (replies_workstation _ _ _ _ _ _ _ _ _ _ H') as [ws' W'].
  destruct (replies_v2 _ _ _ _ _ _ _ _ _ _ _ H L W) as (_ & _ & _ & _ & _ & t & T1 & _ & _ & _ & _).
  destruct (C28_proof_missing_lem _ _ _ _ _ _ _ _ _ _ _ L W H [] [] t T1) as [_ E].
  destruct (C28_proof_missing_lem _ _ _ _ _ _ _ _ _ _ _ L' W' H' [] [] t T1) as [_ E'].
  apply (app_inv_tail (zeros 4)). congruence.
Qed.
Lemma C28_nt_proof_refuted_lem :
  ~ (forall cfg P e level user dom pw ch r b t, host_le cfg = true -> 3 <= level ->
      replies cfg P e level user dom pw ch r b -> response_time ch r = Some t ->
      field_data b 20 = v2_nt_response P (NTOWFv2 P pw user dom) (ch_server_challenge ch)
                          (v2_temp cfg t (e_client_challenge r) (ch_target_infos ch))).
Proof.
  intros H. assert (L : 3 <= 3) by lia.
  assert (R : replies cfg_debug real_prims host_env 3 str_User str_Domain str_Password sealed_challenge sample_entropy
    (sample_reply 3 sealed_challenge)) by (apply sample_replies; [exact sealed_valid|vm_compute; reflexivity]).
  specialize (H cfg_debug real_prims host_env 3 str_User str_Domain str_Password sealed_challenge sample_entropy
    (sample_reply 3 sealed_challenge) (mkFileTime 4096 30000000) eq_refl L R eq_refl). revert H.
  now apply (C28_proof_missing_lem _ _ _ _ _ _ _ _ _ _ _ L sample_workstation R).
Qed.
Example C28_ex_lem : replies cfg_debug real_prims host_env 3 str_User str_Domain str_Password sealed_challenge sample_entropy
    (sample_reply 3 sealed_challenge)
  /\ exists b', replies cfg_debug real_prims bare_env 4 str_Server [] [] sealed_challenge sample_entropy b'.
Proof.
  split; [apply sample_replies; [exact sealed_valid|vm_compute; reflexivity]|].
  assert (M : exists c, made cfg_debug real_prims bare_env 4 str_Server [] [] [] c).
  { eexists. split; [exact real_prims_ok|]. split; [closed_valid|]. split; [closed_valid|]. split; [closed_valid|].
    split; [closed_valid|]. vm_compute. reflexivity. }
  destruct M as [c M].
  destruct (proj2 (answer_v2 cfg_debug real_prims bare_env 4 str_Server [] [] [] c (sample_history sealed_challenge) sealed_challenge
    sample_entropy None M ltac:(lia) ltac:(split; [lia|vm_compute; discriminate]) eq_refl sealed_valid sample_entropy_ok
    (sample_accepts _))) as [b E].
  { split; [vm_compute; discriminate|]. split; [vm_compute; discriminate|]. split; [vm_compute; discriminate|].
    intros _. split; [|split; [vm_compute; discriminate|vm_compute; discriminate]].
    constructor; [vm_compute; discriminate|]. constructor; [vm_compute; discriminate|constructor]. }
  exists b, [], c, (sample_history sealed_challenge). split; [exact M|]. split; [exact sealed_valid|].
  split; [exact sample_entropy_ok|]. split; [apply sample_accepts|exact E].
Qed.

(** ** Session keys kept *)
Lemma obind_val {A B} (x : outcome A) (f : A -> outcome B) b : obind x f = Val b -> exists a, x = Val a /\ f a = Val b.
Proof. destruct x as [a|w]; [eauto|discriminate]. Qed.
Lemma reply_exported cfg P c n ch r a : reply cfg P c n ch r = Val a -> a_exported_key a <> None.
Proof.
  unfold reply. intros H. apply obind_val in H. destruct H as (a0 & H0 & H1). apply val_inj in H1. subst a.
  assert (E : a_exported_key (finish_authenticate c a0) = a_exported_key a0).
  { unfold finish_authenticate. destruct (cl_workstation c), (cl_version c); reflexivity. }
  rewrite E. clear E. set (c' := with_state c _) in H0.
  assert (V1 : send_authenticate_ntlmv1 P c' r = Val a0 -> a_exported_key a0 <> None).
  { unfold send_authenticate_ntlmv1. intros H. apply obind_val in H. destruct H as (ch0 & _ & H).
    apply obind_val in H. destruct H as ([[lm nt] k] & _ & H). apply obind_val in H. destruct H as (kek & _ & H).
    destruct (encrypt_random_session_key _ _ _ _ _) as [ex en]. apply val_inj in H. subst a0. discriminate. }
  assert (V2 : send_authenticate_ntlmv2 cfg P c' r = Val a0 -> a_exported_key a0 <> None).
  { unfold send_authenticate_ntlmv2. intros H. apply obind_val in H. destruct H as (n0 & _ & H).
    apply obind_val in H. destruct H as (ch0 & _ & H). apply obind_val in H. destruct H as ([[[p lm] nt] k] & _ & H).
    destruct (encrypt_random_session_key _ _ _ _ _) as [ex en].
    set (a1 := with_exported_key _ _) in H. unfold compute_mic in H.
    change (a_exported_key a1) with (Some ex) in H.
    apply obind_val in H. destruct H as ([k1 b1] & _ & H). apply obind_val in H. destruct H as ([k2 b2] & _ & H).
    apply obind_val in H. destruct H as ([k3 b3] & _ & H). apply val_inj in H. subst a0. discriminate. }
  unfold build_authenticate in H0.
  destruct (cl_level c') as [|p]; [auto|].
  do 3 (destruct p as [p|p|]; auto; try discriminate H0).
Qed.
Lemma stored_reply cfg P c h n ch a : fresh c -> cl_state (run cfg P c h) = StAuthenticateSent n ch a ->
  exists r, reply cfg P c n ch r = Val a.
Proof.
  intros (Hs & _). revert n ch a. induction h as [|o h IH] using rev_ind; intros n ch a H.
  - cbn in H. congruence.
  - rewrite run_snoc in H. destruct o as [|c'|r]; cbn [step] in H.
    + destruct (send_negociate (run cfg P c h)) as [[b c1]|w] eqn:E; cbn [fst] in H; [|eauto].
      unfold send_negociate in E. apply obind_val in E. destruct E as (m & _ & E).
      apply obind_val in E. destruct E as ([k1 b1] & _ & E). apply obind_val in E. destruct E as (o & _ & E).
      apply val_inj in E. apply (f_equal snd) in E. cbn [snd] in E. subst c1. discriminate H.
    + unfold recv_challenge in H. cbn [fst] in H. destruct (cl_state (run cfg P c h)) eqn:E; try (rewrite E in H; eauto); try discriminate H.
    + destruct (send_authenticate cfg P (run cfg P c h) r) as [[b c1]|w] eqn:E; cbn [fst] in H; [|eauto].
      destruct (cl_state (run cfg P c h)) as [|n0|n0 ch0|n0 ch0 a0] eqn:S.
      * destruct (send_authenticate_not_ready cfg P (run cfg P c h) r) as [w W]; [|congruence].
        rewrite S. intros n1 ch1 [R|[a1 R]]; discriminate R.
      * destruct (send_authenticate_not_ready cfg P (run cfg P c h) r) as [w W]; [|congruence].
        rewrite S. intros n1 ch1 [R|[a1 R]]; discriminate R.
      * rewrite (send_authenticate_ready _ _ _ n0 ch0) in E by (rewrite S; now left).
        apply obind_val in E. destruct E as (a1 & E1 & E). apply obind_val in E. destruct E as ([k1 b1] & _ & E).
        apply val_inj in E. assert (E2 : c1 = set_authenticated_state (with_buffer (run cfg P c h) b1) a1) by congruence.
        subst c1. unfold set_authenticated_state in H. change (cl_state (with_buffer (run cfg P c h) b1)) with (cl_state (run cfg P c h)) in H.
        rewrite S in H. cbn [with_state cl_state] in H. exists r.
        destruct (run_dress cfg P c h) as (s' & b' & R). rewrite R, reply_dress in E1.
        assert (n0 = n) by congruence. assert (ch0 = ch) by congruence. assert (a1 = a) by congruence. subst. exact E1.
      * rewrite (send_authenticate_ready _ _ _ n0 ch0) in E by (rewrite S; right; eauto).
        apply obind_val in E. destruct E as (a1 & E1 & E). apply obind_val in E. destruct E as ([k1 b1] & _ & E).
        apply val_inj in E. assert (E2 : c1 = set_authenticated_state (with_buffer (run cfg P c h) b1) a1) by congruence.
        subst c1. unfold set_authenticated_state in H. change (cl_state (with_buffer (run cfg P c h) b1)) with (cl_state (run cfg P c h)) in H.
        rewrite S in H. change (cl_state (with_buffer (run cfg P c h) b1)) with (cl_state (run cfg P c h)) in H. rewrite S in H. eauto.
Qed.
(** After a reply: which message is kept. *)
Lemma after_reply cfg P c h ch r b : fresh c -> negotiable (cl_level c) (cl_domain c) -> accepts h ch ->
  answer cfg P c h (OpAuthenticate r) = OutBytes b ->
  let m := neg_message (cl_level c) (cl_domain c) in
  (session_key (run cfg P c h) = None ->
    exists a, reply cfg P c m ch r = Val a
      /\ session_key (run cfg P c (h ++ [OpAuthenticate r])) = a_exported_key a)
  /\ (session_key (run cfg P c h) <> None ->
      cl_state (run cfg P c (h ++ [OpAuthenticate r])) = cl_state (run cfg P c h)).
Proof.
  intros F N A H m. destruct (run_states cfg P c F h N) as (_ & _ & R). specialize (R _ A). fold m in R.
  unfold answer in H. rewrite run_snoc. cbn [step] in *. rewrite (send_authenticate_ready _ _ _ _ _ _ R) in *.
  destruct (run_dress cfg P c h) as (s & b0 & E).
  assert (RD : reply cfg P (run cfg P c h) m ch r = reply cfg P c m ch r) by (rewrite E; apply reply_dress).
  rewrite RD in *. destruct (reply cfg P c m ch r) as [a|] eqn:Ea; cbn [obind] in *; [|discriminate H].
  destruct (authenticate_ser cfg a []) as [[k buf]|]; cbn [obind fst snd] in *; [|discriminate H].
  unfold session_key, set_authenticated_state. change (cl_state (with_buffer (run cfg P c h) buf)) with (cl_state (run cfg P c h)).
  destruct R as [R|[a' R]]; rewrite R.
  - split; [intros _; exists a; split; reflexivity|]. intros X. now destruct X.
  - change (cl_state (with_buffer (run cfg P c h) buf)) with (cl_state (run cfg P c h)). rewrite R.
    split; [|reflexivity]. intros X. destruct (stored_reply _ _ _ _ _ _ _ F R) as [r' Er].
    now apply reply_exported in Er.
Qed.
Lemma concludes_replies cfg P e level user dom pw target c h ch r b K : made cfg P e level user dom pw target c ->
  concludes cfg P c h ch r b K -> replies cfg P e level user dom pw ch r b.
Proof. intros M (V & R & A & _ & B & _). exists target, c, h. auto. Qed.
Lemma concludes_v1 cfg P e level user dom pw target c h ch r b K klm : made cfg P e level user dom pw target c ->
  level <= 2 -> lmowfv1 P pw = Val klm -> concludes cfg P c h ch r b K ->
  K = exported (ch_flags ch) (v1_kek P (ntowfv1 cfg P pw) (ch_server_challenge ch)
        (v1_lm P level (ntowfv1 cfg P pw) klm ch r)) (e_session_key r).
Proof.
  intros M L Hk (V & R & A & S & B & SK).
  pose proof (bytes_negotiable _ _ _ _ _ _ _ _ _ _ _ _ M B) as N.
  destruct (made_level _ _ _ _ _ _ _ _ _ M) as [Lv D]. pose proof (made_fresh _ _ _ _ _ _ _ _ _ M) as F.
  rewrite <- Lv, <- D in N.
  destruct (proj1 (after_reply _ _ _ _ _ _ _ F N A B) S) as (a & E1 & E2). rewrite SK in E2.
  destruct (made_fields _ _ _ _ _ _ _ _ _ M) as (klm' & ws & Hk' & _ & Ec).
  assert (klm' = klm) by (apply val_inj; congruence). subst klm'.
  assert (HP : prims_ok P) by apply M.
  rewrite reply_v1 in E1; try assumption; rewrite ?Ec;
    [|exact L|reflexivity|now apply ntowfv1_buffer|exact (lmowfv1_buffer _ _ _ HP Hk)|apply V].
  rewrite Ec in E1. apply val_inj in E1. subst a. apply some_inj in E2. symmetry. exact E2.
Qed.
Lemma concludes_v2 cfg P e level user dom pw target c h ch r b K t : made cfg P e level user dom pw target c ->
  3 <= level -> response_time ch r = Some t -> concludes cfg P c h ch r b K ->
  K = exported (ch_flags ch) (v2_kek cfg P (ntowfv2 cfg P user (ntowfv1 cfg P pw) dom) ch r t) (e_session_key r).
Proof.
  intros M L Ht (V & R & A & S & B & SK).
  pose proof (bytes_negotiable _ _ _ _ _ _ _ _ _ _ _ _ M B) as N.
  destruct (made_level _ _ _ _ _ _ _ _ _ M) as [Lv D]. pose proof (made_fresh _ _ _ _ _ _ _ _ _ M) as F.
  rewrite <- Lv, <- D in N.
  destruct (proj1 (after_reply _ _ _ _ _ _ _ F N A B) S) as (a & E1 & E2). rewrite SK in E2.
  destruct (made_fields _ _ _ _ _ _ _ _ _ M) as (klm & ws & Hk & _ & Ec).
  assert (HP : prims_ok P) by apply M. assert (Hu : is_string user) by apply M. assert (Hd : is_string dom) by apply M.
  destruct (reply_v2 cfg P c (neg_message (cl_level c) (cl_domain c)) ch r HP) as [_ X]; try assumption.
  - rewrite Lv. destruct N. lia.
  - now rewrite Ec.
  - now rewrite Ec.
  - now rewrite D.
  - apply neg_message_valid. now rewrite D.
  - apply neg_message_fits, N.
  - destruct (X _ E1) as (t' & Et & _ & _ & _ & _ & ->). rewrite Ht in Et. apply some_inj in Et. subst t'.
    apply some_inj in E2. rewrite Ec in E2. symmetry. exact E2.
Qed.

(** ** C29 *)
Lemma byte_at_app1 a b i : i < len a -> byte_at (a ++ b) i = byte_at a i.
Proof. intros H. unfold byte_at. apply app_nth1. unfold len in H. lia. Qed.
Lemma u32_zero_mic b : 64 <= len b -> u32_at (zero_mic b) 60 = u32_at b 60.
Proof.
  intros H. unfold zero_mic, u32_at, u16_at.
  assert (G : forall i, i < 64 -> byte_at (sub b 0 64 ++ zeros 16 ++ skipn 80 b) i = byte_at b i).
  { intros i Hi. rewrite byte_at_app1 by (rewrite sub_len; lia). unfold byte_at, sub. cbn [N.to_nat skipn].
    apply nth_firstn_lt. lia. }
  rewrite !G by lia. reflexivity.
Qed.
Lemma authenticate_bytes_long cfg a : is_buffer 16 (a_mic a) -> 64 <= len (authenticate_bytes cfg a).
Proof.
  intros H. unfold authenticate_bytes. rewrite !len_app. unfold authenticate_fields. cbn [descriptors concat].
  rewrite !len_app, !len_descriptor, !len_le32, len_NTLMSSP. lia.
Qed.
(** The message that is under the MIC of a reply. *)
Lemma mic_text : forall cfg P e level user dom pw target c h ch r b K nb,
  made cfg P e level user dom pw target c -> 3 <= level ->
  concludes cfg P c h ch r b K -> answer cfg P c h OpNegociate = OutBytes nb ->
  exists t, response_time ch r = Some t /\ nb = negotiate_bytes (neg_message level dom) /\ let d := authenticate_bytes cfg (v2_draft cfg P (ntowfv2 cfg P user (ntowfv1 cfg P pw) dom) user dom ch r t) in
  sub b 64 16 = p_hmac_md5 P K (nb ++ challenge_bytes cfg ch ++ d)
    /\ d <> zero_mic b
    /\ u32_at d 60 = 1073741825 /\ u32_at (zero_mic b) 60 = 1082130437
    /\ (forall o, In o [12; 20; 28; 36; 52] -> field_data d o = field_data b o)
    /\ field_data d 44 = [] /\ sub d 64 16 = zeros 16.
Proof.
  intros cfg P e level user dom pw target c h ch r b K nb M L C Hnb.
  pose proof (made_workstation_exists _ _ _ _ _ _ _ _ _ M) as Hw.
  pose proof (concludes_replies _ _ _ _ _ _ _ _ _ _ _ _ _ _ M C) as H.
  destruct (replies_v2 _ _ _ _ _ _ _ _ _ _ _ H L Hw) as (HP & Hv & Hr & N & RF & t & T1 & T2 & V & F & Eb).
  pose proof (concludes_v2 _ _ _ _ _ _ _ _ _ _ _ _ _ _ _ M L T1 C) as EK.
  set (k2 := ntowfv2 cfg P user (ntowfv1 cfg P pw) dom) in *.
  set (a := v2_message cfg P k2 user dom (cl_workstation c) (neg_message level dom) ch r t) in *.
  destruct (v2_by_offset _ _ _ _ _ _ _ _ _ _ V F) as (H1 & H2 & H3 & H4 & H5 & H6 & H7 & H8). fold a in H1, H2, H3, H4, H5, H6, H7, H8.
  rewrite <- Eb in *.
  set (d := v2_draft cfg P k2 user dom ch r t).
  assert (Vd : valid_authenticate d) by (apply v2_draft_valid; try assumption; apply M).
  assert (Fd : fits (authenticate_fields cfg d)).
  { apply (v2_fields_fit cfg P k2 user dom None ch r t); auto.
    destruct RF as (R1 & R2 & R3 & R4). destruct (R4 L) as (_ & R5 & _). split; [|exact R5].
    split; [exact R1|]. split; [exact R2|]. cbn. lia. }
  destruct (authenticate_by_offset cfg d Vd Fd) as (D1 & D2 & D3 & D4 & D5 & D6 & D7 & D8).
  destruct (authenticate_by_offset cfg a V F) as (A1 & A2 & A3 & A4 & A5 & A6 & A7 & A8). rewrite <- Eb in *.
  assert (Lb : 64 <= len b) by (rewrite Eb; apply authenticate_bytes_long, V).
  assert (NB : nb = negotiate_bytes (neg_message level dom)).
  { destruct (made_level _ _ _ _ _ _ _ _ _ M) as [Lv Dm]. rewrite <- Lv, <- Dm in N |- *. unfold answer in Hnb. cbn [step] in Hnb.
    rewrite (send_neg_run cfg P c (made_fresh _ _ _ _ _ _ _ _ _ M) h N) in Hnb. now apply outbytes_inj in Hnb. }
  exists t. split; [exact T1|]. split; [exact NB|]. cbv zeta. fold d. split.
  { rewrite H8, EK, NB. unfold v2_mac_input. reflexivity. }
  assert (Z : u32_at (zero_mic b) 60 = 1082130437) by (rewrite u32_zero_mic by exact Lb; exact A7).
  split; [intros E; rewrite <- E, D7 in Z; discriminate Z|]. split; [exact D7|]. split; [exact Z|].
  split; [|split; [exact D5|exact (D8 eq_refl)]].
  intros o [<-|[<-|[<-|[<-|[<-|[]]]]]].
  - rewrite A1. exact D1.
  - rewrite A2. exact D2.
  - rewrite A3. exact D3.
  - rewrite A4. exact D4.
  - rewrite A6. exact D6.
Qed.
(** The MIC sent is that of another message: with other flags, and without the workstation. *)
Lemma C29_mic_of_other_message_lem : forall cfg P e level user dom pw target c h ch r b K nb,
  made cfg P e level user dom pw target c -> 3 <= level ->
  concludes cfg P c h ch r b K -> answer cfg P c h OpNegociate = OutBytes nb ->
  exists d, sub b 64 16 = p_hmac_md5 P K (nb ++ challenge_bytes cfg ch ++ d)
    /\ d <> zero_mic b
    /\ u32_at d 60 = 1073741825 /\ u32_at (zero_mic b) 60 = 1082130437
    /\ (forall o, In o [12; 20; 28; 36; 52] -> field_data d o = field_data b o)
    /\ field_data d 44 = [] /\ sub d 64 16 = zeros 16.
Proof.
  intros cfg P e level user dom pw target c h ch r b K nb M L C Hnb.
  destruct (mic_text _ _ _ _ _ _ _ _ _ _ _ _ _ _ _ M L C Hnb) as (t & _ & _ & X). eexists. exact X.
Qed.
Lemma v1_by_offset cfg P level knt klm user dom ws ch r :
  let a := v1_message P level knt klm user dom ws ch r in
  valid_authenticate a -> fits (authenticate_fields cfg a) ->
  let b := authenticate_bytes cfg a in
  field_data b 12 = v1_lm P level knt klm ch r
  /\ field_data b 20 = v1_nt_response P (ch_flags ch) knt (ch_server_challenge ch) (e_client_challenge r)
  /\ field_data b 28 = utf16le dom /\ field_data b 36 = utf16le user
  /\ field_data b 44 = content (opt_map utf16le ws)
  /\ field_data b 52 = encrypted P (ch_flags ch) (v1_kek P knt (ch_server_challenge ch) (v1_lm P level knt klm ch r)) (e_session_key r)
  /\ u32_at b 60 = v1_reply_flags (ch_flags ch) /\ sub b 64 16 = zeros 16.
Proof.
  intros a V F b. destruct (authenticate_by_offset cfg a V F) as (H1 & H2 & H3 & H4 & H5 & H6 & H7 & H8).
  fold b in H1, H2, H3, H4, H5, H6, H7, H8. repeat (split; [assumption|]). exact (H8 eq_refl).
Qed.
(** [compute_mic] on any message, and again on its own result: the MIC that
    was there does not matter, and nothing else changes. *)
Lemma C29_compute_mic_lem : forall cfg P a n c key, valid_authenticate a -> valid_negotiate n -> valid_challenge c ->
  a_exported_key a = Some key ->
  (forall a', compute_mic cfg P a n c = Val a' <->
     fits (negotiate_fields n) /\ fits (challenge_fields cfg c) /\ fits (authenticate_fields cfg a)
     /\ a_mic a' = p_hmac_md5 P key (negotiate_bytes n ++ challenge_bytes cfg c ++ authenticate_bytes cfg (without_mic a))
     /\ without_mic a' = without_mic a)
  /\ (forall a', compute_mic cfg P a n c = Val a' -> compute_mic cfg P a' n c = Val a').
Proof.
  intros cfg P a n c key Va Vn Vc K.
  assert (E : compute_mic cfg P a n c = if fitsb (negotiate_fields n) && (fitsb (challenge_fields cfg c) && fitsb (authenticate_fields cfg a))
    then Val (with_mic a (p_hmac_md5 P key (negotiate_bytes n ++ challenge_bytes cfg c ++ authenticate_bytes cfg (without_mic a))))
    else Panic PExpect).
  { unfold compute_mic. rewrite K. change (with_mic a (buf_default 16)) with (without_mic a).
    rewrite negotiate_ser_spec by exact Vn. destruct (fitsb (negotiate_fields n)); [|reflexivity]. cbn [obind andb].
    rewrite challenge_ser_spec by exact Vc. destruct (fitsb (challenge_fields cfg c)); [|reflexivity]. cbn [obind andb].
    rewrite authenticate_ser_spec.
    2:{ destruct Va as (V1 & V2 & V3 & V4 & V5 & V6 & V7 & V8 & V9 & V10). repeat (split; [assumption|]). split; [apply zeros_buffer|exact V10]. }
    change (authenticate_fields cfg (without_mic a)) with (authenticate_fields cfg a).
    destruct (fitsb (authenticate_fields cfg a)); [|reflexivity]. cbn [obind].
    rewrite app_nil_l, <- app_assoc. reflexivity. }
  split.
  - intros a'. rewrite E. rewrite <- !fitsb_fits. destruct (fitsb (negotiate_fields n)), (fitsb (challenge_fields cfg c)), (fitsb (authenticate_fields cfg a)); cbn [andb];
      try (split; [discriminate|intros (? & ? & ? & _); discriminate]).
    split.
    + intros H; apply val_inj in H. subst a'. repeat split; reflexivity.
    + intros (_ & _ & _ & H & H'). f_equal. destruct a, a'. cbn in *. injection H' as -> -> -> -> -> -> -> -> ->. now rewrite H.
  - intros a' H. rewrite E in H. destruct (_ && _) eqn:F in H; [|discriminate H]. apply val_inj in H. subst a'.
    unfold compute_mic in *. cbn [a_exported_key with_mic]. rewrite K in *.
    match goal with |- context [with_mic (with_mic a ?m) (buf_default 16)] =>
      change (with_mic (with_mic a m) (buf_default 16)) with (with_mic a (buf_default 16)) end.
    rewrite E, F. reflexivity.
Qed.
Example C29_compute_mic_ex_lem : exists n, valid_authenticate (with_exported_key sample_authenticate (Some (repeat 7 16))) /\ valid_negotiate n /\ valid_challenge sample_challenge
  /\ a_exported_key (with_exported_key sample_authenticate (Some (repeat 7 16))) = Some (repeat 7 16)
  /\ exists a', compute_mic cfg_debug real_prims (with_exported_key sample_authenticate (Some (repeat 7 16))) n sample_challenge = Val a'.
Proof.
  exists sample_negotiate. split; [closed_valid|]. split; [closed_valid|]. split; [closed_valid|]. split; [reflexivity|].
  eexists. vm_compute. reflexivity.
Qed.
(** At levels 0 to 2 no MIC is computed: its place holds zeros. *)
Lemma C29_no_mic_below_3_lem : forall cfg P e level user dom pw ch r b, level <= 2 ->
  replies cfg P e level user dom pw ch r b -> sub b 64 16 = zeros 16.
Proof.
  intros cfg P e level user dom pw ch r b L H.
  destruct (replies_workstation _ _ _ _ _ _ _ _ _ _ H) as [ws W]. destruct (replies_lm _ _ _ _ _ _ _ _ _ _ H) as [klm K].
  destruct (replies_v1 _ _ _ _ _ _ _ _ _ _ _ _ H L W K) as (_ & _ & _ & V & F & ->).
  apply (v1_by_offset _ _ _ _ _ _ _ _ _ _ V F).
Qed.
Lemma sample_concludes level ch K : valid_challenge ch ->
  session_key (run cfg_debug real_prims (sample_client level) (sample_history ch)) = None ->
  answer cfg_debug real_prims (sample_client level) (sample_history ch) (OpAuthenticate sample_entropy)
    = OutBytes (sample_reply level ch) ->
  session_key (run cfg_debug real_prims (sample_client level) (sample_history ch ++ [OpAuthenticate sample_entropy])) = Some K ->
  concludes cfg_debug real_prims (sample_client level) (sample_history ch) ch sample_entropy (sample_reply level ch) K.
Proof.
  intros V A B C. split; [exact V|]. split; [apply sample_entropy_ok|]. split; [apply sample_accepts|].
  split; [exact A|]. split; [exact B|exact C].
Qed.
Lemma C29_mic_refuted_lem :
  ~ (forall cfg P e level user dom pw target c h ch r b K nb,
      made cfg P e level user dom pw target c -> 3 <= level ->
      concludes cfg P c h ch r b K -> answer cfg P c h OpNegociate = OutBytes nb ->
      sub b 64 16 = p_hmac_md5 P K (nb ++ challenge_bytes cfg ch ++ zero_mic b)).
Proof.
  intros H.
  assert (C : concludes cfg_debug real_prims (sample_client 3) (sample_history sealed_challenge) sealed_challenge sample_entropy
    (sample_reply 3 sealed_challenge) (repeat 85 16)).
  { apply sample_concludes; [exact sealed_valid|vm_compute; reflexivity|vm_compute; reflexivity|vm_compute; reflexivity]. }
  destruct (answer cfg_debug real_prims (sample_client 3) (sample_history sealed_challenge) OpNegociate) as [nb| |] eqn:E;
    [|vm_compute in E; discriminate E|vm_compute in E; discriminate E].
  specialize (H _ _ _ _ _ _ _ _ _ _ _ _ _ _ nb (sample_made 3) ltac:(lia) C E).
  vm_compute in E. apply outbytes_inj in E. subst nb. revert H. vm_compute. discriminate.
Qed.
Example C29_ex_lem : concludes cfg_debug real_prims (sample_client 3) (sample_history sealed_challenge) sealed_challenge sample_entropy
    (sample_reply 3 sealed_challenge) (repeat 85 16)
  /\ (exists nb, answer cfg_debug real_prims (sample_client 3) (sample_history sealed_challenge) OpNegociate = OutBytes nb)
  /\ replies cfg_debug real_prims host_env 1 str_User str_Domain str_Password old_challenge sample_entropy (sample_reply 1 old_challenge).
Proof.
  split; [apply sample_concludes; [exact sealed_valid|vm_compute; reflexivity|vm_compute; reflexivity|vm_compute; reflexivity]|].
  split; [eexists; vm_compute; reflexivity|]. apply sample_replies; [exact old_valid|vm_compute; reflexivity].
Qed.

(** ** C30 *)
(** Levels 0 to 2: with key exchange, the key sent decrypts to the key kept,
    which is the random one drawn, under the key
    HMAC(session base key, server challenge || first 8 bytes of the LM response);
    with EXTENDED_SESSIONSECURITY that is the key exchange key of MS-NLMP. *)
Lemma C30_session_key_ntlmv1_lem : forall cfg P e level user dom pw target c h ch r b K klm,
  made cfg P e level user dom pw target c -> level <= 2 -> host_le cfg = true ->
  lmowfv1 P pw = Val klm -> concludes cfg P c h ch r b K -> key_exchange (ch_flags ch) = true ->
  let sbk := v1_session_base_key P (NTOWFv1 P pw) in
  N.testbit (u32_at b 60) 30 = true
  /\ K = e_session_key r
  /\ RC4K P (p_hmac_md5 P sbk (ch_server_challenge ch ++ sub (field_data b 12) 0 8)) (field_data b 52) = K
  /\ (ESS (ch_flags ch) = true ->
      RC4K P (KXKEY P (ch_flags ch) sbk (field_data b 12) (ch_server_challenge ch) klm) (field_data b 52) = K).
Proof.
  intros cfg P e level user dom pw target c h ch r b K klm M L Hle Hk C X sbk.
  pose proof (made_workstation_exists _ _ _ _ _ _ _ _ _ M) as Hw.
  pose proof (concludes_replies _ _ _ _ _ _ _ _ _ _ _ _ _ _ M C) as H.
  destruct (replies_v1 _ _ _ _ _ _ _ _ _ _ _ _ H L Hw Hk) as (HP & Hv & Hr & V & F & Eb).
  pose proof (concludes_v1 _ _ _ _ _ _ _ _ _ _ _ _ _ _ _ M L Hk C) as EK.
  destruct (v1_by_offset _ _ _ _ _ _ _ _ _ _ V F) as (H1 & H2 & H3 & H4 & H5 & H6 & H7 & H8). rewrite <- Eb in *.
  destruct (C36_nt_hashes_lem cfg P pw user dom Hle) as [E1 _]. rewrite E1 in *.
  destruct (v1_reply_flags_bits (ch_flags ch) (proj1 (proj2 Hv))) as [_ B].
  split; [rewrite H7, B; reflexivity|].
  unfold exported in EK. rewrite X in EK. split; [exact EK|].
  unfold encrypted in H6. rewrite X in H6. rewrite H1, H6. unfold v1_kek. fold sbk.
  split; [rewrite EK; now apply RC4K_involutive|].
  intros S. unfold KXKEY. rewrite S. rewrite EK. now apply RC4K_involutive.
Qed.
(** Levels 3 to 5: the server, which knows NTOWFv2, its challenge and the
    client challenge structure in the message, recovers the key. *)
Lemma C30_session_key_ntlmv2_lem : forall cfg P e level user dom pw target c h ch r b K,
  made cfg P e level user dom pw target c -> 3 <= level -> host_le cfg = true ->
  concludes cfg P c h ch r b K -> key_exchange (ch_flags ch) = true ->
  N.testbit (u32_at b 60) 30 = true
  /\ K = e_session_key r
  /\ RC4K P (v2_session_base_key P (NTOWFv2 P pw user dom) (ch_server_challenge ch) (field_data b 20 ++ zeros 4))
       (field_data b 52) = K.
Proof.
  intros cfg P e level user dom pw target c h ch r b K M L Hle C X.
  pose proof (made_workstation_exists _ _ _ _ _ _ _ _ _ M) as Hw.
  pose proof (concludes_replies _ _ _ _ _ _ _ _ _ _ _ _ _ _ M C) as H.
  destruct (replies_v2 _ _ _ _ _ _ _ _ _ _ _ H L Hw) as (HP & Hv & Hr & N & RF & t & T1 & T2 & V & F & Eb).
  pose proof (concludes_v2 _ _ _ _ _ _ _ _ _ _ _ _ _ _ _ M L T1 C) as EK.
  destruct (v2_by_offset _ _ _ _ _ _ _ _ _ _ V F) as (H1 & H2 & H3 & H4 & H5 & H6 & H7 & H8). rewrite <- Eb in *.
  destruct (C36_nt_hashes_lem cfg P pw user dom Hle) as [_ E2]. rewrite E2 in *.
  split; [rewrite H7; reflexivity|]. unfold exported in EK. rewrite X in EK. split; [exact EK|].
  unfold encrypted in H6. rewrite X in H6. rewrite H2, H6, EK. unfold v2_kek. now apply RC4K_involutive.
Qed.
(** Without key exchange the reply still has KEY_EXCH set, and an encrypted key of zeros. *)
Lemma C30_without_key_exchange_lem : forall cfg P e level user dom pw ch r b,
  replies cfg P e level user dom pw ch r b -> key_exchange (ch_flags ch) = false ->
  N.testbit (u32_at b 60) 30 = true /\ field_data b 52 = zeros 16.
Proof.
  intros cfg P e level user dom pw ch r b H X.
  destruct (replies_workstation _ _ _ _ _ _ _ _ _ _ H) as [ws W]. destruct (replies_lm _ _ _ _ _ _ _ _ _ _ H) as [klm K].
  destruct (N.le_gt_cases level 2) as [L|L].
  - destruct (replies_v1 _ _ _ _ _ _ _ _ _ _ _ _ H L W K) as (_ & Hv & _ & V & F & Eb).
    destruct (v1_by_offset _ _ _ _ _ _ _ _ _ _ V F) as (H1 & H2 & H3 & H4 & H5 & H6 & H7 & H8). rewrite <- Eb in *.
    destruct (v1_reply_flags_bits (ch_flags ch) (proj1 (proj2 Hv))) as [_ B].
    split; [rewrite H7, B; reflexivity|]. unfold encrypted in H6. now rewrite X in H6.
  - assert (L' : 3 <= level) by lia.
    destruct (replies_v2 _ _ _ _ _ _ _ _ _ _ _ H L' W) as (HP & Hv & Hr & N & RF & t & T1 & T2 & V & F & Eb).
    destruct (v2_by_offset _ _ _ _ _ _ _ _ _ _ V F) as (H1 & H2 & H3 & H4 & H5 & H6 & H7 & H8). rewrite <- Eb in *.
    split; [rewrite H7; reflexivity|]. unfold encrypted in H6. now rewrite X in H6.
Qed.
Lemma C30_session_key_refuted_lem :
  ~ (forall cfg P e level user dom pw target c h ch r b K,
      made cfg P e level user dom pw target c -> 3 <= level -> host_le cfg = true ->
      concludes cfg P c h ch r b K -> N.testbit (u32_at b 60) 30 = true ->
      RC4K P (v2_session_base_key P (NTOWFv2 P pw user dom) (ch_server_challenge ch) (field_data b 20 ++ zeros 4))
        (field_data b 52) = K).
Proof.
  intros H.
  assert (S : exists K, session_key (run cfg_debug real_prims (sample_client 3)
              (sample_history sample_challenge ++ [OpAuthenticate sample_entropy])) = Some K)
    by (eexists; vm_compute; reflexivity).
  destruct S as [K S].
  assert (C : concludes cfg_debug real_prims (sample_client 3) (sample_history sample_challenge) sample_challenge sample_entropy
    (sample_reply 3 sample_challenge) K).
  { apply sample_concludes; [closed_valid|vm_compute; reflexivity|vm_compute; reflexivity|exact S]. }
  specialize (H _ _ _ _ _ _ _ _ _ _ _ _ _ _ (sample_made 3) ltac:(lia) eq_refl C ltac:(vm_compute; reflexivity)).
  vm_compute in S. apply some_inj in S. rewrite S in H. revert H. vm_compute. discriminate.
Qed.
Example C30_ex_lem : key_exchange (ch_flags sealed_challenge) = true /\ ESS (ch_flags sealed_challenge) = true
  /\ key_exchange (ch_flags sample_challenge) = false
  /\ concludes cfg_debug real_prims (sample_client 2) (sample_history sealed_challenge) sealed_challenge sample_entropy
       (sample_reply 2 sealed_challenge) (repeat 85 16)
  /\ concludes cfg_debug real_prims (sample_client 3) (sample_history sealed_challenge) sealed_challenge sample_entropy
       (sample_reply 3 sealed_challenge) (repeat 85 16)
  /\ replies cfg_debug real_prims host_env 3 str_User str_Domain str_Password sample_challenge sample_entropy (sample_reply 3 sample_challenge).
Proof.
  split; [reflexivity|]. split; [reflexivity|]. split; [reflexivity|].
  split; [apply sample_concludes; [exact sealed_valid|vm_compute; reflexivity|vm_compute; reflexivity|vm_compute; reflexivity]|].
  split; [apply sample_concludes; [exact sealed_valid|vm_compute; reflexivity|vm_compute; reflexivity|vm_compute; reflexivity]|].
  apply sample_replies; [closed_valid|vm_compute; reflexivity].
Qed.

(** ** C31 *)
(** The session key kept at levels 0 to 2 when no key is exchanged: always the
    HMAC that MS-NLMP 3.4.5.1 prescribes for EXTENDED_SESSIONSECURITY, and so
    right with that flag. *)
Lemma C31_key_exchange_key_lem : forall cfg P e level user dom pw target c h ch r b K klm,
  made cfg P e level user dom pw target c -> level <= 2 -> host_le cfg = true ->
  lmowfv1 P pw = Val klm -> concludes cfg P c h ch r b K -> key_exchange (ch_flags ch) = false ->
  let sbk := v1_session_base_key P (NTOWFv1 P pw) in
  K = p_hmac_md5 P sbk (ch_server_challenge ch ++ sub (field_data b 12) 0 8)
  /\ (ESS (ch_flags ch) = true -> K = KXKEY P (ch_flags ch) sbk (field_data b 12) (ch_server_challenge ch) klm).
Proof.
  intros cfg P e level user dom pw target c h ch r b K klm M L Hle Hk C X sbk.
  pose proof (made_workstation_exists _ _ _ _ _ _ _ _ _ M) as Hw.
  pose proof (concludes_replies _ _ _ _ _ _ _ _ _ _ _ _ _ _ M C) as H.
  destruct (replies_v1 _ _ _ _ _ _ _ _ _ _ _ _ H L Hw Hk) as (HP & Hv & Hr & V & F & Eb).
  pose proof (concludes_v1 _ _ _ _ _ _ _ _ _ _ _ _ _ _ _ M L Hk C) as EK.
  destruct (v1_by_offset _ _ _ _ _ _ _ _ _ _ V F) as (H1 & _). rewrite <- Eb in *.
  destruct (C36_nt_hashes_lem cfg P pw user dom Hle) as [E1 _]. rewrite E1 in *.
  unfold exported in EK. rewrite X in EK. rewrite H1.
  split; [exact EK|]. intros S. unfold KXKEY. rewrite S. exact EK.
Qed.
Lemma C31_key_exchange_key_refuted_lem :
  ~ (forall cfg P e level user dom pw target c h ch r b K klm,
      made cfg P e level user dom pw target c -> level <= 2 -> host_le cfg = true ->
      lmowfv1 P pw = Val klm -> concludes cfg P c h ch r b K -> key_exchange (ch_flags ch) = false ->
      K = KXKEY P (ch_flags ch) (v1_session_base_key P (NTOWFv1 P pw)) (field_data b 12) (ch_server_challenge ch) klm).
Proof.
  intros H.
  assert (S : exists K, session_key (run cfg_debug real_prims (sample_client 0)
              (sample_history old_challenge ++ [OpAuthenticate sample_entropy])) = Some K)
    by (eexists; vm_compute; reflexivity).
  destruct S as [K S].
  assert (C : concludes cfg_debug real_prims (sample_client 0) (sample_history old_challenge) old_challenge sample_entropy
    (sample_reply 0 old_challenge) K).
  { apply sample_concludes; [exact old_valid|vm_compute; reflexivity|vm_compute; reflexivity|exact S]. }
  assert (A : is_ascii str_Password) by (unfold is_ascii; closed_valid).
  specialize (H _ _ _ _ _ _ _ _ _ _ _ _ _ _ _ (sample_made 0) ltac:(lia) eq_refl
    (lmowfv1_ascii _ _ real_prims_ok A) C eq_refl).
  vm_compute in S. apply some_inj in S. rewrite S in H. revert H. vm_compute. discriminate.
Qed.
(** MS-NLMP 4.2.3.1.2 *)
Example C31_ex_lem : key_exchange (ch_flags sample_challenge) = false /\ ESS (ch_flags sample_challenge) = true
  /\ lmowfv1 real_prims str_Password = Val (LMOWFv1 real_prims str_Password)
  /\ concludes cfg_debug real_prims (sample_client 1) (sample_history sample_challenge) sample_challenge sample_entropy
       (sample_reply 1 sample_challenge) [235; 147; 66; 154; 139; 217; 82; 248; 184; 156; 85; 184; 127; 71; 94; 220].
Proof.
  split; [reflexivity|]. split; [reflexivity|].
  split; [apply (lmowfv1_ascii _ _ real_prims_ok); unfold is_ascii; closed_valid|].
  apply sample_concludes; [closed_valid|vm_compute; reflexivity|vm_compute; reflexivity|vm_compute; reflexivity].
Qed.

(** ** C32 *)
(** The responses in every reply at levels 0 to 2; at levels 1 and 2 the LM
    response repeats the NT response (NoLMResponseNTLMv1). *)
Lemma C32_ntlmv1_response_lem : forall cfg P e level user dom pw ws ch r b klm, host_le cfg = true -> level <= 2 ->
  workstation_name P e ws -> lmowfv1 P pw = Val klm -> replies cfg P e level user dom pw ch r b ->
  field_data b 12 = v1_lm_response P (ch_flags ch) (NTOWFv1 P pw) klm (ch_server_challenge ch)
                      (e_client_challenge r) (1 <=? level)
  /\ field_data b 20 = v1_nt_response P (ch_flags ch) (NTOWFv1 P pw) (ch_server_challenge ch) (e_client_challenge r)
  /\ field_data b 28 = utf16le dom /\ field_data b 36 = utf16le user
  /\ field_data b 44 = content (opt_map utf16le ws).
Proof.
  intros cfg P e level user dom pw ws ch r b klm Hle L Hw Hk H.
  destruct (replies_v1 _ _ _ _ _ _ _ _ _ _ _ _ H L Hw Hk) as (HP & Hv & Hr & V & F & Eb).
  destruct (v1_by_offset _ _ _ _ _ _ _ _ _ _ V F) as (H1 & H2 & H3 & H4 & H5 & _). rewrite <- Eb in *.
  destruct (C36_nt_hashes_lem cfg P pw user dom Hle) as [E1 _]. rewrite E1 in *.
  split; [|auto]. rewrite H1. unfold v1_lm. f_equal. lia.
Qed.
(** MS-NLMP 4.2.2: no EXTENDED_SESSIONSECURITY, "User" and "Password" *)
Example C32_ex_lem :
  replies cfg_debug real_prims host_env 0 str_User str_Domain str_Password old_challenge sample_entropy (sample_reply 0 old_challenge)
  /\ field_data (sample_reply 0 old_challenge) 12
     = [152; 222; 247; 184; 127; 136; 170; 93; 175; 226; 223; 119; 150; 136; 161; 114; 222; 241; 28; 125; 92; 205; 239; 19]
  /\ field_data (sample_reply 1 old_challenge) 12 = field_data (sample_reply 0 old_challenge) 20
  /\ field_data (sample_reply 2 sample_challenge) 20
     = [117; 55; 248; 3; 174; 54; 113; 40; 202; 69; 130; 4; 189; 231; 202; 248; 30; 151; 237; 38; 131; 38; 114; 50].
Proof.
  split; [apply sample_replies; [exact old_valid|vm_compute; reflexivity]|]. split; [vm_compute; reflexivity|].
  split; vm_compute; reflexivity.
Qed.

(** ** C42 *)
Lemma decodable_now cfg r t : host_time cfg (e_clock r) -> filetime_try_from (e_clock r) = inl t -> decodable_time cfg t.
Proof.
  intros Hh E Hwin. specialize (Hh Hwin).
  assert (H0 : (0 <= e_clock r)%Z).
  { destruct (Z.lt_ge_cases (e_clock r) 0) as [N|N]; [|exact N].
    apply C39_filetime_errors_lem in N. rewrite N in E. discriminate. }
  assert (H1 : seconds (e_clock r) * 1000000 < 18446744073709551616).
  { destruct (N.lt_ge_cases (seconds (e_clock r) * 1000000) 18446744073709551616) as [N|N]; [exact N|].
    destruct (proj2 (C39_filetime_errors_lem (e_clock r))) as [X _]. rewrite (X (conj H0 N)) in E. discriminate. }
  destruct (C39_filetime_conversion_lem cfg _ H0 H1) as (f & E' & Vf & Ef & _).
  rewrite E in E'. apply inl_inj in E'. subst f. rewrite ft_as_u64_value in Ef by exact Vf. rewrite Ef.
  rewrite N.div_mul by lia. unfold seconds. 
  assert (e_clock r / 1000000000 <= 910692730085)%Z by lia. lia.
Qed.
Lemma response_time_decodable cfg ch r t : Forall (carried_av cfg) (ch_target_infos ch) -> host_time cfg (e_clock r) ->
  response_time ch r = Some t -> decodable_time cfg t.
Proof.
  intros Hc Hh. unfold response_time. destruct (first_some timestamp_of (ch_target_infos ch)) as [t0|] eqn:E.
  - intros X. apply some_inj in X. subst t0. revert E. induction Hc as [|a l Ha _ IH]; [discriminate|].
    cbn [first_some]. destruct a; cbn [timestamp_of]; try exact IH.
    intros X. apply some_inj in X. subst. exact Ha.
  - destruct (filetime_try_from (e_clock r)) as [t0|] eqn:E2; [|discriminate].
    intros X. apply some_inj in X. subst t0. now apply (decodable_now cfg r).
Qed.
(** Levels 3 to 5, for every challenge that came over the wire: the bytes
    decode to the message meant; names are seen as far as UTF-16 without
    surrogates carries them, and empty ones are seen as absent. *)
Lemma C42_reply_decodes_lem : forall cfg P e level user dom pw ws w rest ch r b,
  host_le cfg = true -> 3 <= level -> workstation_name P e ws ->
  is_bytes w -> challenge_de cfg w = POk rest ch -> host_time cfg (e_clock r) ->
  replies cfg P e level user dom pw ch r b ->
  exists t a, authenticate_de cfg b = POk [] a /\ response_time ch r = Some t
    /\ a_lm a = Some (LmV2 (p_hmac_md5 P (NTOWFv2 P pw user dom) (ch_server_challenge ch ++ e_client_challenge r))
                           (e_client_challenge r))
    /\ a_nt a = Some (NtV2 (mkNtv2 t (e_client_challenge r) (ch_target_infos ch)))
    /\ a_domain a = seen_text (Some dom) /\ a_user a = seen_text (Some user) /\ a_workstation a = seen_text ws
    /\ a_session_key a = Some (field_data b 52) /\ a_version a = None /\ a_mic a = sub b 64 16
    /\ (forall i, N.testbit (a_flags a) i = existsb (N.eqb i) [0; 2; 23; 30]).
Proof.
  intros cfg P e level user dom pw ws w rest ch r b Hle L Hw Wb Hde Hh H.
  destruct (replies_v2 _ _ _ _ _ _ _ _ _ _ _ H L Hw) as (HP & Hv & Hr & N & RF & t & T1 & T2 & V & F & Eb).
  apply C53_decoded_challenge_lem in Hde; [|exact Wb]. destruct Hde as [_ Hs].
  destruct (challenge_says_good cfg w ch Hle Wb Hs) as (_ & (_ & Hav & _) & _).
  destruct (C36_nt_hashes_lem cfg P pw user dom Hle) as [_ E2]. rewrite E2 in *.
  set (a := v2_message cfg P (NTOWFv2 P pw user dom) user dom ws (neg_message level dom) ch r t) in *.
  destruct (authenticate_by_offset cfg a V F) as (A1 & A2 & A3 & A4 & A5 & A6 & A7 & A8). rewrite <- Eb in *.
  exists t, (seen_authenticate a). split.
  { rewrite Eb, <- (app_nil_r (authenticate_bytes cfg a)). apply authenticate_seen; [exact Hle|exact V|].
    split; [exact F|]. split; [|reflexivity]. cbn [valid_opt carried_nt a v2_message v2_draft a_nt with_flags with_workstation with_mic].
    split; [|exact Hav]. now apply (response_time_decodable cfg ch r). }
  split; [exact T1|]. split.
  { unfold seen_authenticate, a_lm. unfold a, v2_message, v2_draft. cbn [a_lm a_flags with_flags with_workstation with_mic opt_map].
    unfold seen_lm. replace (N.testbit V2_FLAGS 9) with false by reflexivity. cbn [lm_bytes].
    pose proof (hmac_buffer P (NTOWFv2 P pw user dom) (ch_server_challenge ch ++ e_client_challenge r) HP) as [B _].
    rewrite firstn_app_exact, skipn_app_exact by (symmetry; exact B). reflexivity. }
  split; [reflexivity|]. split; [reflexivity|]. split; [reflexivity|]. split; [reflexivity|].
  split; [rewrite A6; reflexivity|]. split; [reflexivity|]. split; [symmetry; exact (A8 eq_refl)|].
  intros i. change (a_flags (seen_authenticate a)) with 1082130437.
  assert (D : i < 31 \/ 31 <= i) by lia. destruct D as [D|D].
  - assert (E : exists k : nat, (k < 31)%nat /\ i = N.of_nat k) by (exists (N.to_nat i); lia).
    destruct E as (k & Hk & ->). do 31 (destruct k as [|k]; [vm_compute; reflexivity|]). lia.
  - rewrite (N.bits_above_log2 _ i) by (eapply N.lt_le_trans; [|exact D]; vm_compute; reflexivity).
    symmetry. apply not_true_iff_false. intros X. apply existsb_exists in X. destruct X as (x & Hx & E).
    apply N.eqb_eq in E. subst x. cbn in Hx. lia.
Qed.
(** Levels 0 to 2, if the server did not set the VERSION flag. *)
Lemma C42_old_reply_decodes_lem : forall cfg P e level user dom pw ws ch r b,
  host_le cfg = true -> level <= 2 -> workstation_name P e ws ->
  replies cfg P e level user dom pw ch r b -> N.testbit (ch_flags ch) 25 = false ->
  exists a, authenticate_de cfg b = POk [] a
    /\ a_lm a = Some (if N.testbit (ch_flags ch) 9 then LmV1 (field_data b 12)
                      else LmV2 (firstn 16 (field_data b 12)) (skipn 16 (field_data b 12)))
    /\ a_nt a = Some (NtV1 (field_data b 20))
    /\ a_domain a = seen_text (Some dom) /\ a_user a = seen_text (Some user) /\ a_workstation a = seen_text ws
    /\ a_session_key a = Some (field_data b 52) /\ a_version a = None /\ a_mic a = zeros 16
    /\ (forall i, N.testbit (a_flags a) i
          = if existsb (N.eqb i) [2; 23; 30] then true
            else if existsb (N.eqb i) [1; 17] then false else N.testbit (ch_flags ch) i).
Proof.
  intros cfg P e level user dom pw ws ch r b Hle L Hw H H25.
  destruct (replies_lm _ _ _ _ _ _ _ _ _ _ H) as [klm Hk].
  destruct (replies_v1 _ _ _ _ _ _ _ _ _ _ _ _ H L Hw Hk) as (HP & Hv & Hr & V & F & Eb).
  set (a := v1_message P level (ntowfv1 cfg P pw) klm user dom ws ch r) in *.
  destruct (authenticate_by_offset cfg a V F) as (A1 & A2 & A3 & A4 & A5 & A6 & A7 & A8). rewrite <- Eb in *.
  destruct (v1_reply_flags_bits (ch_flags ch) (proj1 (proj2 Hv))) as [_ B].
  exists (seen_authenticate a). split.
  { rewrite Eb, <- (app_nil_r (authenticate_bytes cfg a)). apply authenticate_seen; [exact Hle|exact V|].
    split; [exact F|]. split; [exact I|]. cbn [revision_ok]. change (a_version a) with (@None version).
    cbn [revision_ok]. change (a_flags a) with (v1_reply_flags (ch_flags ch)). rewrite B. exact H25. }
  assert (B9 : N.testbit (a_flags a) 9 = N.testbit (ch_flags ch) 9)
    by (change (a_flags a) with (v1_reply_flags (ch_flags ch)); rewrite B; reflexivity).
  split.
  { rewrite A1. unfold seen_authenticate at 1. cbn [a_lm]. change (a_lm a) with (Some (LmV1 (v1_lm P level (ntowfv1 cfg P pw) klm ch r))).
    cbn [opt_map content]. unfold seen_lm. rewrite B9. reflexivity. }
  split; [rewrite A2; reflexivity|]. split; [reflexivity|]. split; [reflexivity|]. split; [reflexivity|].
  split. 
  { rewrite A6. unfold seen_authenticate. cbn [a_session_key]. change (a_flags a) with (v1_reply_flags (ch_flags ch)).
    rewrite B. reflexivity. }
  split; [reflexivity|]. split; [reflexivity|].
  intros i. change (a_flags (seen_authenticate a)) with (v1_reply_flags (ch_flags ch)). rewrite B.
  cbn [existsb]. rewrite !orb_false_r, !orb_assoc. reflexivity.
Qed.
(** If it did, the client copies the flag without sending a version: no reply can be decoded. *)
Lemma C42_version_flag_breaks_lem : forall cfg P e level user dom pw ch r b, level <= 2 ->
  replies cfg P e level user dom pw ch r b -> N.testbit (ch_flags ch) 25 = true ->
  authenticate_de cfg b = PErr EError.
Proof.
  intros cfg P e level user dom pw ch r b L H H25.
  destruct (replies_workstation _ _ _ _ _ _ _ _ _ _ H) as [ws W]. destruct (replies_lm _ _ _ _ _ _ _ _ _ _ H) as [klm Hk].
  destruct (replies_v1 _ _ _ _ _ _ _ _ _ _ _ _ H L W Hk) as (HP & Hv & Hr & V & F & Eb).
  destruct (v1_by_offset _ _ _ _ _ _ _ _ _ _ V F) as (_ & _ & _ & _ & _ & _ & H7 & H8). rewrite <- Eb in *.
  destruct (v1_reply_flags_bits (ch_flags ch) (proj1 (proj2 Hv))) as [_ B].
  rewrite authenticate_de_spec. unfold authenticate_headerb, opt_version_ok. rewrite H7, B.
  cbn [N.eqb Pos.eqb orb]. rewrite H25. unfold version_ok.
  assert (Z : byte_at b (64 + 7) = 0).
  { apply (f_equal (fun x => nth 7 x 0)) in H8. unfold sub in H8. rewrite nth_firstn_lt in H8 by (cbn; lia).
    rewrite nth_skipn_add in H8. exact H8. }
  rewrite Z. cbn [N.eqb]. rewrite !andb_false_r. reflexivity.
Qed.
Lemma C42_reply_decodes_refuted_lem :
  ~ (forall cfg P e level user dom pw ch r b, host_le cfg = true ->
      replies cfg P e level user dom pw ch r b -> exists a, authenticate_de cfg b = POk [] a).
Proof.
  intros H.
  assert (R : replies cfg_debug real_prims host_env 2 str_User str_Domain str_Password versioned_challenge sample_entropy
     (sample_reply 2 versioned_challenge)) by (apply sample_replies; [exact versioned_valid|vm_compute; reflexivity]).
  destruct (H cfg_debug _ _ _ _ _ _ _ _ _ eq_refl R) as [a E].
  rewrite (C42_version_flag_breaks_lem cfg_debug _ _ 2 _ _ _ _ _ _ ltac:(lia) R eq_refl) in E. discriminate E.
Qed.
Example C42_ex_lem : is_bytes (challenge_bytes cfg_debug sealed_challenge)
  /\ challenge_de cfg_debug (challenge_bytes cfg_debug sealed_challenge) = POk [] sealed_challenge
  /\ host_time cfg_debug (e_clock sample_entropy)
  /\ replies cfg_debug real_prims host_env 4 str_User str_Domain str_Password sealed_challenge sample_entropy (sample_reply 4 sealed_challenge)
  /\ replies cfg_debug real_prims host_env 1 str_User str_Domain str_Password old_challenge sample_entropy (sample_reply 1 old_challenge)
  /\ N.testbit (ch_flags old_challenge) 25 = false /\ N.testbit (ch_flags versioned_challenge) 25 = true.
Proof.
  split; [closed_valid|]. split; [vm_compute; reflexivity|]. split; [intros X; discriminate X|].
  split; [apply sample_replies; [exact sealed_valid|vm_compute; reflexivity]|].
  split; [apply sample_replies; [exact old_valid|vm_compute; reflexivity]|]. split; reflexivity.
Qed.

(** The session key function, also with a given key: with KEY_EXCH and SIGN or
    SEAL the exported key is the given one, or else the drawn one, and its RC4
    under the key exchange key is sent, from which it is recovered; otherwise
    the key exchange key is exported and 16 zero bytes are sent. *)
Lemma C30_encrypt_session_key_lem : forall P f kek given drawn,
  prims_ok P -> exists exported sent, encrypt_random_session_key P f kek given drawn = (exported, sent)
  /\ (key_exchange f = true ->
      (forall k, given = Some k -> exported = k) /\ (given = None -> exported = drawn)
      /\ sent = RC4K P kek exported /\ RC4K P kek sent = exported)
  /\ (key_exchange f = false -> exported = kek /\ sent = zeros 16).
Proof.
  intros P f kek given drawn HP.
  set (E := match given with Some e => e | None => drawn end).
  assert (F : encrypt_random_session_key P f kek given drawn
    = if key_exchange f then (E, RC4K P kek E) else (kek, zeros 16)).
  { unfold encrypt_random_session_key, key_exchange. rewrite !has_flag_testbit.
    unfold NTLMSSP_NEGOTIATE_KEY_EXCH, NTLMSSP_NEGOTIATE_SIGN, NTLMSSP_NEGOTIATE_SEAL.
    destruct (N.testbit f 30 && _); [|reflexivity]. now rewrite rc4_apply_RC4K. }
  rewrite F. destruct (key_exchange f).
  - exists E, (RC4K P kek E). split; [reflexivity|]. split; [|discriminate]. intros _.
    split; [intros k ->; reflexivity|]. split; [intros ->; reflexivity|]. split; [reflexivity|now apply RC4K_involutive].
  - exists kek, (zeros 16). split; [reflexivity|]. split; [discriminate|auto].
Qed.
(** MS-NLMP 4.2.2.2.3: the given key 55...55. *)
Example C30_encrypt_session_key_ex_lem :
  encrypt_random_session_key real_prims (2 ^ 30 + 2 ^ 4) (repeat 85 16) (Some (repeat 85 16)) (repeat 1 16)
  = (repeat 85 16, RC4K real_prims (repeat 85 16) (repeat 85 16))
  /\ key_exchange (2 ^ 30 + 2 ^ 4) = true /\ key_exchange (2 ^ 30) = false.
Proof. vm_compute. repeat split. Qed.
