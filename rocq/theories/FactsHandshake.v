(** Facts about two parties that run different builds. *)
From Coq Require Import ZifyBool ZifyNat ZifyN.
From Verif Require Import Base Nom Unicode Wire Structures Prims Messages Crypto Client Spec SpecBuild SpecCrypto SpecClient SpecTrace SpecHandshake Lib Encode Decode RoundTrip Parse Samples FactsEncode FactsDecode FactsBuild DesKey RealPrims FactsCrypto SamplesClient History Reply FactsClient FactsReply FactsTrace.

Ltac Zify.zify_post_hook ::= Z.div_mod_to_equations.

(** ** C93 *)
Section Builds.
  Variables cfg cfg' : config.
  Hypothesis Hle : host_le cfg = host_le cfg'.
  Lemma same_u16s l : u16s_as_bytes cfg l = u16s_as_bytes cfg' l.
  Proof. destruct cfg, cfg'. cbn in Hle. subst. reflexivity. Qed.
  Lemma same_av_list l : av_list_bytes cfg l = av_list_bytes cfg' l.
  Proof. destruct cfg, cfg'. cbn in Hle. subst. reflexivity. Qed.
  Lemma same_challenge_fields c : challenge_fields cfg c = challenge_fields cfg' c.
  Proof. destruct cfg, cfg'. cbn in Hle. subst. reflexivity. Qed.
  Lemma same_challenge_bytes c : challenge_bytes cfg c = challenge_bytes cfg' c.
  Proof. destruct cfg, cfg'. cbn in Hle. subst. reflexivity. Qed.
  Lemma same_authenticate_fields a : authenticate_fields cfg a = authenticate_fields cfg' a.
  Proof. destruct cfg, cfg'. cbn in Hle. subst. reflexivity. Qed.
  Lemma same_authenticate_bytes a : authenticate_bytes cfg a = authenticate_bytes cfg' a.
  Proof. destruct cfg, cfg'. cbn in Hle. subst. reflexivity. Qed.
  Lemma same_ntv2_bytes a : ntv2_bytes cfg a = ntv2_bytes cfg' a.
  Proof. destruct cfg, cfg'. cbn in Hle. subst. reflexivity. Qed.
  Lemma same_v2_message P k2 user dom ws n ch r t :
    v2_message cfg P k2 user dom ws n ch r t = v2_message cfg' P k2 user dom ws n ch r t.
  Proof. destruct cfg, cfg'. cbn in Hle. subst. reflexivity. Qed.
  Lemma same_made P e level user dom pw target c : made cfg P e level user dom pw target c ->
    made cfg' P e level user dom pw target c.
  Proof.
    intros (H1 & H2 & H3 & H4 & H5 & H6). repeat (split; [assumption|]).
    rewrite <- H6. destruct cfg, cfg'. cbn in Hle. subst. reflexivity.
  Qed.
  Lemma same_reply_fits level user dom ws ch r :
    reply_fits cfg level user dom ws ch r -> reply_fits cfg' level user dom ws ch r.
  Proof. unfold reply_fits. now rewrite same_challenge_fields, same_av_list. Qed.
  Lemma same_reply P e level user dom pw target c ch r a : made cfg P e level user dom pw target c ->
    negotiable level dom -> valid_challenge ch -> is_entropy r ->
    let n := neg_message level dom in
    reply cfg P c n ch r = Val a -> reply cfg' P c n ch r = Val a.
  Proof.
    intros M N Hch Hr n E. destruct (made_fields _ _ _ _ _ _ _ _ _ M) as (klm & ws & _ & _ & Ec).
    assert (HP : prims_ok P) by apply M. assert (Hu : is_string user) by apply M. assert (Hd : is_string dom) by apply M.
    assert (Vn : valid_negotiate n) by now apply neg_message_valid.
    assert (Fn : fits (negotiate_fields n)) by (apply neg_message_fits; apply N).
    assert (D : level <= 2 \/ 3 <= level <= 5) by (destruct N; lia). destruct D as [D|D].
    - transitivity (reply cfg P c n ch r); [|exact E]. unfold reply, build_authenticate. subst c. cbn [cl_level with_state].
      assert (L : level = 0 \/ level = 1 \/ level = 2) by lia. destruct L as [->|[->| ->]]; reflexivity.
    - assert (C1 : 3 <= cl_level c <= 5) by (rewrite Ec; exact D).
      assert (C2 : cl_version c = None) by (rewrite Ec; reflexivity).
      assert (C3 : is_string (cl_username c)) by (rewrite Ec; exact Hu).
      assert (C4 : is_string (cl_domain c)) by (rewrite Ec; exact Hd).
      destruct (reply_v2 cfg P c n ch r HP C1 C2 C3 C4 Hch Hr Vn Fn) as [_ R2].
      destruct (reply_v2 cfg' P c n ch r HP C1 C2 C3 C4 Hch Hr Vn Fn) as [R1 _].
      destruct (R2 _ E) as (t & T1 & T2 & T3 & T4 & T5 & ->). rewrite same_v2_message.
      rewrite same_challenge_fields in T2. rewrite same_av_list in T3. now apply R1.
  Qed.
End Builds.

(** Builds for hosts of the same byte order encode every message alike, and
    panic on the same ones. *)
Lemma C93_encoders_lem : forall cfg cfg', host_le cfg = host_le cfg' ->
  (forall n, valid_negotiate n -> serialize cfg (negotiate_ser n) = serialize cfg' (negotiate_ser n))
  /\ (forall c, valid_challenge c -> serialize cfg (challenge_ser cfg c) = serialize cfg' (challenge_ser cfg' c))
  /\ (forall a, valid_authenticate a -> serialize cfg (authenticate_ser cfg a) = serialize cfg' (authenticate_ser cfg' a)).
Proof.
  intros cfg cfg' H. split; [|split].
  - intros n V. rewrite !negotiate_serialize by exact V. reflexivity.
  - intros c V. rewrite !challenge_serialize by exact V. now rewrite (same_challenge_fields _ _ H), (same_challenge_bytes _ _ H).
  - intros a V. rewrite !authenticate_serialize by exact V. now rewrite (same_authenticate_fields _ _ H), (same_authenticate_bytes _ _ H).
Qed.

Lemma reply_valid cfg P e level user dom pw target c ch r a : made cfg P e level user dom pw target c ->
  negotiable level dom -> valid_challenge ch -> is_entropy r ->
  reply cfg P c (neg_message level dom) ch r = Val a -> valid_authenticate a.
Proof.
  intros M N Hch Hr Ea. pose proof (made_workstation_exists _ _ _ _ _ _ _ _ _ M) as W.
  assert (HP : prims_ok P) by apply M. assert (Hu : is_string user) by apply M. assert (Hd : is_string dom) by apply M.
  destruct (made_fields _ _ _ _ _ _ _ _ _ M) as (klm & ws & Hk & _ & Ec).
  destruct (made_workstation _ _ _ _ _ _ _ _ _ _ M W) as [_ Vw].
  assert (C2 : cl_version c = None) by (rewrite Ec; reflexivity).
  assert (C3 : is_string (cl_username c)) by (rewrite Ec; exact Hu).
  assert (C4 : is_string (cl_domain c)) by (rewrite Ec; exact Hd).
  assert (Dl : level <= 2 \/ 3 <= level <= 5) by (destruct N; lia). destruct Dl as [Dl|Dl].
  - assert (C1 : cl_level c <= 2) by (rewrite Ec; exact Dl).
    assert (Kl : is_buffer 16 (cl_lm_hash c)) by (rewrite Ec; eapply lmowfv1_buffer; [exact HP|exact Hk]).
    assert (Kn : is_buffer 16 (cl_nt_hash c)) by (rewrite Ec; now apply ntowfv1_buffer).
    rewrite reply_v1 in Ea by (assumption || apply Hch).
    apply val_inj in Ea. subst a. now apply v1_message_valid.
  - assert (C1 : 3 <= cl_level c <= 5) by (rewrite Ec; exact Dl).
    destruct (reply_v2 cfg P c (neg_message level dom) ch r HP C1 C2 C3 C4 Hch Hr) as [_ R2];
      [now apply neg_message_valid|apply neg_message_fits; apply N|].
    destruct (R2 _ Ea) as (t & T1 & _ & _ & _ & _ & ->).
    apply v2_message_valid; try assumption. eapply response_time_valid; [|exact T1]. apply Hch.
Qed.
Lemma accepted_typed h ch : Forall typed_op h -> accepts h ch -> valid_challenge ch.
Proof.
  intros F (h1 & h2 & h3 & -> & _). apply Forall_app in F. destruct F as [_ F]. inversion F as [|? ? _ F1]; subst.
  apply Forall_app in F1. destruct F1 as [_ F1]. now inversion F1.
Qed.

(** ... and so do clients: the same client is created, is in the same state
    after the same calls, and returns the same. *)
Lemma C93_client_lem : forall cfg cfg' P e level user dom pw target c, host_le cfg = host_le cfg' ->
  made cfg P e level user dom pw target c ->
  made cfg' P e level user dom pw target c
  /\ (forall h, Forall typed_op h -> run cfg P c h = run cfg' P c h)
  /\ (forall h o, Forall typed_op h -> typed_op o -> same_out (answer cfg P c h o) (answer cfg' P c h o)).
Proof.
  intros cfg cfg' P e level user dom pw target c H M.
  pose proof (same_made _ _ H _ _ _ _ _ _ _ _ M) as M'.
  assert (ST : forall h, Forall typed_op h -> run cfg P c h = run cfg' P c h -> forall o, typed_op o ->
    fst (step cfg P (run cfg P c h) o) = fst (step cfg' P (run cfg' P c h) o)
    /\ same_out (answer cfg P c h o) (answer cfg' P c h o)).
  { intros h Fh E o Ho. destruct o as [|ch|r].
    - unfold answer. rewrite E. cbn [step]. destruct (send_negociate _) as [[b c']|w]; split; reflexivity || exact I.
    - unfold answer. rewrite E. split; reflexivity.
    - cbn [typed_op] in Ho. pose proof (made_workstation_exists _ _ _ _ _ _ _ _ _ M) as W.
      assert (AV : forall ch, accepts h ch -> valid_challenge ch) by (intros; eapply accepted_typed; eassumption).
      destruct (C24_panics_exactly_lem cfg P e level user dom pw target c h r _ M W Ho AV) as [P1 B1].
      destruct (C24_panics_exactly_lem cfg' P e level user dom pw target c h r _ M' W Ho AV) as [P2 B2].
      destruct (snd (step cfg P (run cfg P c h) (OpAuthenticate r))) as [b| |w] eqn:EA.
      + assert (X : negotiable level dom /\ exists ch, accepts h ch /\ reply_fits cfg level user dom (cl_workstation c) ch r)
          by (apply B1; exists b; exact EA).
        destruct X as (N & ch & A & RF). apply (same_reply_fits _ _ H) in RF.
        assert (Y : exists b, answer cfg' P c h (OpAuthenticate r) = OutBytes b) by (apply B2; eauto). destruct Y as [b' EB].
        pose proof (made_fresh _ _ _ _ _ _ _ _ _ M) as F. destruct (made_level _ _ _ _ _ _ _ _ _ M) as [Lv D].
        assert (Nc : negotiable (cl_level c) (cl_domain c)) by now rewrite Lv, D.
        destruct (run_states cfg P c F h Nc) as (_ & _ & R). specialize (R _ A). rewrite Lv, D in R.
        unfold answer in *. rewrite <- E in EB |- *. cbn [step] in *.
        rewrite (send_authenticate_ready cfg _ _ _ _ _ R) in *. rewrite (send_authenticate_ready cfg' _ _ _ _ _ R) in *.
        destruct (run_dress cfg P c h) as (s & b0 & Ed).
        assert (RD : forall k, reply k P (run cfg P c h) (neg_message level dom) ch r = reply k P c (neg_message level dom) ch r)
          by (intros k; rewrite Ed; apply reply_dress).
        rewrite !RD in *.
        destruct (reply cfg P c (neg_message level dom) ch r) as [a|] eqn:Ea; cbn [obind snd] in EA; [|discriminate EA].
        pose proof (same_reply _ _ H _ _ _ _ _ _ _ _ _ _ _ M N (AV _ A) Ho Ea) as Ea'. rewrite Ea' in *. cbn [obind snd] in *.
        assert (Va : valid_authenticate a) by (eapply reply_valid; [exact M|exact N|exact (AV _ A)|exact Ho|exact Ea]).
        rewrite !authenticate_ser_spec in * by exact Va.
        rewrite <- (same_authenticate_fields _ _ H), <- (same_authenticate_bytes _ _ H) in *.
        destruct (fitsb _); cbn [obind fst snd] in *; [|discriminate EA]. split; reflexivity.
      + exfalso. cbn [step] in EA. destruct (send_authenticate _ _ _ _) as [[? ?]|]; discriminate EA.
      + assert (X : exists w, answer cfg' P c h (OpAuthenticate r) = OutPanic w).
        { apply P2. intros (N & ch & A & RF). apply (same_reply_fits _ _ (eq_sym H)) in RF.
          assert (Y : exists w, answer cfg P c h (OpAuthenticate r) = OutPanic w) by (exists w; exact EA).
          apply P1 in Y. apply Y. eauto. }
        destruct X as [w' EB]. split.
        * unfold answer in EB. rewrite E in *. cbn [step] in *.
          destruct (send_authenticate cfg _ _ _) as [[? ?]|]; [discriminate EA|].
          destruct (send_authenticate cfg' _ _ _) as [[? ?]|]; [discriminate EB|]. reflexivity.
        * unfold answer in *. rewrite EA, EB. exact I. }
  assert (RN : forall h, Forall typed_op h -> run cfg P c h = run cfg' P c h).
  { induction h as [|o h IH] using rev_ind; [reflexivity|]. intros F. apply Forall_app in F. destruct F as [F Fo].
    inversion Fo as [|? ? Ho _]; subst. rewrite !run_snoc. apply ST; auto. }
  split; [exact M'|]. split; [exact RN|]. intros h o F Ho. apply ST; auto.
Qed.
(** The clients of a debug, a strict release and a Windows build. *)
Example C93_ex_lem :
  made cfg_debug real_prims host_env 3 str_User str_Domain str_Password str_target (sample_client 3)
  /\ Forall typed_op (sample_history sealed_challenge) /\ typed_op (OpAuthenticate sample_entropy)
  /\ host_le cfg_debug = host_le (mkConfig false true true true)
  /\ answer (mkConfig false true true true) real_prims (sample_client 3) (sample_history sealed_challenge)
       (OpAuthenticate sample_entropy)
     = OutBytes (sample_reply 3 sealed_challenge).
Proof.
  split; [apply sample_made|]. split; [|split; [|split; [reflexivity|]]].
  - pose proof sample_entropy_ok. pose proof old_valid. pose proof versioned_valid. pose proof sealed_valid.
    unfold sample_history. repeat (constructor; [cbn [typed_op]; auto|]). constructor.
  - apply sample_entropy_ok.
  - vm_compute. reflexivity.
Qed.

(** ** C94 *)
Lemma prefix_is_string s : is_string s -> is_string (plain_prefix s).
Proof.
  intros H. induction H as [|c s Hc Hs IH]; [constructor|]. cbn [plain_prefix]. destruct (plain_char c); constructor; assumption.
Qed.
Lemma prefix_utf16_len s : len (utf16le (plain_prefix s)) <= len (utf16le s).
Proof.
  induction s as [|c s IH]; [cbn; lia|]. cbn [plain_prefix]. destruct (plain_char c).
  - change (c :: plain_prefix s) with ([c] ++ plain_prefix s). change (c :: s) with ([c] ++ s).
    unfold utf16le in *. rewrite !flat_map_app, !len_app. lia.
  - change (len (utf16le [])) with 0. lia.
Qed.
Lemma seen_challenge_good cfg ch : valid_challenge ch -> sendable_challenge cfg ch ->
  valid_challenge (seen_challenge ch) /\ fits (challenge_fields cfg (seen_challenge ch)).
Proof.
  intros (H1 & H2 & H3 & H4 & H5) (F & _). split.
  - split; [|auto]. cbn [seen_challenge ch_target_name]. destruct (ch_target_name ch) as [[|x s]|]; cbn [seen_text valid_opt]; auto.
    now apply prefix_is_string.
  - unfold fits, challenge_fields in *. inversion F as [|? ? F1 F2]; subst. constructor; [|exact F2].
    cbn [seen_challenge ch_target_name]. destruct (ch_target_name ch) as [[|x s]|];
      [cbn; lia| |cbn; lia]. pose proof (prefix_utf16_len (x :: s)) as L. cbn [seen_text opt_map content] in *. lia.
Qed.

Lemma handshake_accepts h ch : accepts (h ++ [OpNegociate; OpRecvChallenge ch]) ch.
Proof. exists h, [], []. split; [reflexivity|]. split; constructor. Qed.

(** What goes over the wire, and what the client and a client of the server's build do. *)
Lemma logon_wire cc cs P e level user dom pw target c h ch r :
  host_le cc = true -> host_le cs = true -> made cc P e level user dom pw target c -> negotiable level dom ->
  valid_challenge ch -> sendable_challenge cc ch -> sendable_challenge cs ch -> is_entropy r ->
  reply_fits cc level user dom (cl_workstation c) (seen_challenge ch) r ->
  let hh := h ++ [OpNegociate; OpRecvChallenge (seen_challenge ch)] in
  exists w1 n w2 w3 K,
    answer cc P c h OpNegociate = OutBytes w1 /\ negotiate_de cs w1 = POk [] n
    /\ n_domain n = match dom with [] => None | _ => Some dom end
    /\ serialize cs (challenge_ser cs ch) = Val w2 /\ challenge_de cc w2 = POk [] (seen_challenge ch)
    /\ concludes cc P c hh (seen_challenge ch) r w3 K
    /\ replies cs P e level user dom pw (seen_challenge ch) r w3.
Proof.
  intros Lc Ls M N V Sc Ss Hr RF hh. assert (HE : host_le cc = host_le cs) by congruence.
  destruct (C25_negotiate_sent_lem _ _ _ _ _ _ _ _ _ M N) as (w1 & n & A1 & A2 & _ & A3 & _).
  destruct (seen_challenge_good cc ch V Sc) as [V' F'].
  pose proof (made_workstation_exists _ _ _ _ _ _ _ _ _ M) as W.
  pose proof (handshake_accepts h (seen_challenge ch)) as HA. fold hh in HA.
  pose proof (made_fresh _ _ _ _ _ _ _ _ _ M) as F. destruct (made_level _ _ _ _ _ _ _ _ _ M) as [Lv D].
  assert (Nc : negotiable (cl_level c) (cl_domain c)) by now rewrite Lv, D.
  assert (X : exists w3, sent cc P c (seen_challenge ch) r = Val w3).
  { set (h0 := [] ++ [OpNegociate; OpRecvChallenge (seen_challenge ch)]).
    pose proof (handshake_accepts [] (seen_challenge ch)) as HA0. fold h0 in HA0.
    destruct (C24_panics_exactly_lem cc P e level user dom pw target c h0 r _ M W Hr) as [_ [_ B]].
    - intros ch' A'. rewrite (proj1 (C23_no_other_challenge_lem _ _ _ _ _ _ _ _ _ _ r M) _ _ HA0 A'). exact V'.
    - destruct B as [b B]; [split; [exact N|]; exists (seen_challenge ch); auto|].
      rewrite (answer_accepts cc P c F h0 _ r Nc HA0) in B. destruct (sent _ _ _ _ _) as [b'|]; [eauto|discriminate B]. }
  destruct X as [w3 X3].
  assert (B : forall h', accepts h' (seen_challenge ch) -> answer cc P c h' (OpAuthenticate r) = OutBytes w3).
  { intros h' A'. rewrite (answer_accepts cc P c F h' _ r Nc A'), X3. reflexivity. }
  assert (S0 : session_key (run cc P c hh) = None).
  { apply (C59_key_discarded_lem cc P e level user dom pw target c h [OpRecvChallenge (seen_challenge ch)] M N).
    repeat constructor. }
  destruct (proj1 (after_reply _ _ _ _ _ _ _ F Nc HA (B _ HA)) S0) as (a & E1 & E2).
  pose proof (reply_exported _ _ _ _ _ _ _ E1) as NK. destruct (a_exported_key a) as [K|]; [|now destruct NK].
  exists w1, n, (challenge_bytes cs ch), w3, K.
  split; [apply A1|]. split; [apply A2|]. split; [exact A3|].
  split. { rewrite challenge_serialize by exact V. destruct Ss as [Fs _]. apply fitsb_fits in Fs. now rewrite Fs. }
  split. { rewrite <- (same_challenge_bytes _ _ HE), <- (app_nil_r (challenge_bytes cc ch)). now apply challenge_seen. }
  split. { split; [exact V'|]. split; [exact Hr|]. split; [exact HA|]. split; [exact S0|]. split; [exact (B _ HA)|exact E2]. }
  set (h0 := [] ++ [OpNegociate; OpRecvChallenge (seen_challenge ch)]).
  destruct (C93_client_lem _ _ _ _ _ _ _ _ _ _ HE M) as (M' & _ & SO).
  exists target, c, h0. split; [exact M'|]. split; [exact V'|]. split; [exact Hr|].
  assert (HA0 : accepts h0 (seen_challenge ch)) by apply handshake_accepts. split; [exact HA0|].
  assert (T : Forall typed_op h0) by (repeat constructor; apply V').
  specialize (SO h0 (OpAuthenticate r) T Hr). rewrite (B _ HA0) in SO. cbn [same_out] in SO. now symmetry.
Qed.

(** Levels 3 to 5: whatever the client did before, and whichever builds the two
    run on little-endian hosts, the logon succeeds.  The server reads the names
    as they are (as far as text can be carried), accepts the LMv2 response
    with the password, and has the client's session key. *)
Lemma C94_logon_lem : forall cc cs P e level user dom pw target c h ch r ws,
  host_le cc = true -> host_le cs = true ->
  made cc P e level user dom pw target c -> 3 <= level -> negotiable level dom -> workstation_name P e ws ->
  valid_challenge ch -> sendable_challenge cc ch -> sendable_challenge cs ch ->
  is_entropy r -> host_time cs (e_clock r) -> response_time ch r <> None ->
  len (utf16le user) <= 65535 -> len (utf16le dom) <= 65535 -> len (content (opt_map utf16le ws)) <= 65535 ->
  28 + len (av_list_bytes cs (ch_target_infos ch)) <= 65535 ->
  exists n a K, logon cc cs P c h ch r n a K
    /\ n_domain n = match dom with [] => None | _ => Some dom end
    /\ a_user a = seen_text (Some user) /\ a_domain a = seen_text (Some dom) /\ a_workstation a = seen_text ws
    /\ lmv2_good P (ch_server_challenge ch) user dom pw a
    /\ lmv2_key P cs ch user dom pw a = Some K.
Proof.
  intros cc cs P e level user dom pw target c h ch r ws Lc Ls M L N Hw V Sc Ss Hr Hh HT U1 U2 U3 U4.
  assert (HE : host_le cc = host_le cs) by congruence.
  destruct (made_workstation _ _ _ _ _ _ _ _ _ _ M Hw) as [Ew Vw].
  destruct (seen_challenge_good cc ch V Sc) as [V' F'].
  assert (RF : reply_fits cc level user dom (cl_workstation c) (seen_challenge ch) r).
  { rewrite Ew. split; [exact U1|]. split; [exact U2|]. split; [exact U3|]. intros _. split; [exact F'|].
    cbn [seen_challenge ch_target_infos]. rewrite (same_av_list _ _ HE). split; [exact U4|exact HT]. }
  destruct (logon_wire cc cs P e level user dom pw target c h ch r Lc Ls M N V Sc Ss Hr RF)
    as (w1 & n & w2 & w3 & K & A1 & A2 & A3 & A4 & A5 & A6 & A7).
  destruct (replies_v2 _ _ _ _ _ _ _ _ _ _ _ A7 L Hw) as (HP & _ & _ & _ & _ & t & T1 & T2 & VA & FA & Eb).
  destruct (C36_nt_hashes_lem cs P pw user dom Ls) as [_ E2]. rewrite E2 in *.
  pose proof (concludes_v2 _ _ _ _ _ _ _ _ _ _ _ _ _ _ _ M L T1 A6) as EK.
  destruct (C36_nt_hashes_lem cc P pw user dom Lc) as [_ E3]. rewrite E3 in *.
  set (k2 := NTOWFv2 P pw user dom) in *.
  set (a := v2_message cs P k2 user dom ws (neg_message level dom) (seen_challenge ch) r t) in *.
  exists n, (seen_authenticate a), K. split.
  { exists w1, w2, w3, (seen_challenge ch). split; [exact A1|]. split; [exact A2|]. split; [exact A4|]. split; [exact A5|].
    destruct A6 as (_ & _ & _ & _ & B1 & B2). split; [exact B1|]. split.
    - rewrite Eb, <- (app_nil_r (authenticate_bytes cs a)). apply authenticate_seen; [exact Ls|exact VA|].
      split; [exact FA|]. split; [|reflexivity].
      cbn [valid_opt carried_nt a v2_message v2_draft a_nt with_flags with_workstation with_mic].
      destruct Ss as (_ & Hav & _). split; [|exact Hav]. now apply (response_time_decodable cs (seen_challenge ch) r).
    - rewrite <- app_assoc in B2. exact B2. }
  split; [exact A3|]. split; [reflexivity|]. split; [reflexivity|]. split; [reflexivity|].
  pose proof (hmac_buffer P k2 (ch_server_challenge ch ++ e_client_challenge r) HP) as [B _]. split.
  - exists (e_client_challenge r). destruct Hr as [Hc _]. split; [apply len_buffer in Hc; exact Hc|].
    change (a_lm (seen_authenticate a)) with (Some (LmV2
      (firstn 16 (p_hmac_md5 P k2 (ch_server_challenge ch ++ e_client_challenge r) ++ e_client_challenge r))
      (skipn 16 (p_hmac_md5 P k2 (ch_server_challenge ch ++ e_client_challenge r) ++ e_client_challenge r)))).
    rewrite firstn_app_exact, skipn_app_exact by (symmetry; exact B). reflexivity.
  - unfold lmv2_key. change (a_nt (seen_authenticate a)) with (Some (NtV2 (mkNtv2 t (e_client_challenge r) (ch_target_infos ch)))).
    change (a_session_key (seen_authenticate a))
      with (Some (encrypted P (ch_flags ch) (v2_kek cs P k2 (seen_challenge ch) r t) (e_session_key r))).
    cbv zeta iota. rewrite EK. f_equal.
    assert (ET : v2_session_base_key P k2 (ch_server_challenge ch)
                   (ntv2_bytes cs (mkNtv2 t (e_client_challenge r) (ch_target_infos ch)) ++ zeros 4)
                 = v2_kek cs P k2 (seen_challenge ch) r t).
    { unfold v2_kek, v2_temp, ntv2_bytes. cbn [nt_timestamp nt_client_challenge nt_target_infos seen_challenge ch_target_infos ch_server_challenge].
      now rewrite <- !app_assoc. }
    fold k2. rewrite ET.
    replace (v2_kek cc P k2 (seen_challenge ch) r t) with (v2_kek cs P k2 (seen_challenge ch) r t)
      by (unfold v2_kek, v2_temp; now rewrite (same_av_list _ _ HE)).
    unfold exported, encrypted. cbn [seen_challenge ch_flags]. destruct (key_exchange (ch_flags ch)); [|reflexivity].
    now apply RC4K_involutive.
Qed.

(** Levels 0 to 2, if the server does not set the VERSION flag: the server
    accepts the NT response and has the session key (as the crate derives it,
    see C31). *)
Lemma C94_old_logon_lem : forall cc cs P e level user dom pw target c h ch r ws,
  host_le cc = true -> host_le cs = true ->
  made cc P e level user dom pw target c -> level <= 2 -> negotiable level dom -> workstation_name P e ws ->
  valid_challenge ch -> sendable_challenge cc ch -> sendable_challenge cs ch -> N.testbit (ch_flags ch) 25 = false ->
  is_entropy r ->
  len (utf16le user) <= 65535 -> len (utf16le dom) <= 65535 -> len (content (opt_map utf16le ws)) <= 65535 ->
  exists n a K, logon cc cs P c h ch r n a K
    /\ n_domain n = match dom with [] => None | _ => Some dom end
    /\ a_user a = seen_text (Some user) /\ a_domain a = seen_text (Some dom) /\ a_workstation a = seen_text ws
    /\ nt1_good P ch pw a
    /\ nt1_key P ch pw a = Some K.
Proof.
  intros cc cs P e level user dom pw target c h ch r ws Lc Ls M L N Hw V Sc Ss H25 Hr U1 U2 U3.
  destruct (made_workstation _ _ _ _ _ _ _ _ _ _ M Hw) as [Ew Vw].
  assert (RF : reply_fits cc level user dom (cl_workstation c) (seen_challenge ch) r).
  { rewrite Ew. split; [exact U1|]. split; [exact U2|]. split; [exact U3|]. lia. }
  destruct (logon_wire cc cs P e level user dom pw target c h ch r Lc Ls M N V Sc Ss Hr RF)
    as (w1 & n & w2 & w3 & K & A1 & A2 & A3 & A4 & A5 & A6 & A7).
  destruct (replies_lm _ _ _ _ _ _ _ _ _ _ A7) as [klm Hk].
  destruct (C42_old_reply_decodes_lem cs P e level user dom pw ws (seen_challenge ch) r w3 Ls L Hw A7 H25)
    as (a & D1 & D2 & D3 & D4 & D5 & D6 & D7 & _).
  destruct (C32_ntlmv1_response_lem cs P e level user dom pw ws (seen_challenge ch) r w3 klm Ls L Hw Hk A7) as (R1 & R2 & _).
  assert (EL : exists lm, a_lm a = Some lm /\ lm_bytes lm = field_data w3 12).
  { rewrite D2. destruct (N.testbit _ 9); eexists; (split; [reflexivity|]); [reflexivity|]. cbn [lm_bytes]. apply firstn_skipn. }
  destruct EL as (lm & EL & ELb).
  exists n, a, K. split.
  { exists w1, w2, w3, (seen_challenge ch). split; [exact A1|]. split; [exact A2|]. split; [exact A4|]. split; [exact A5|].
    destruct A6 as (_ & _ & _ & _ & B1 & B2). split; [exact B1|]. split; [exact D1|]. rewrite <- app_assoc in B2. exact B2. }
  split; [exact A3|]. split; [exact D5|]. split; [exact D4|]. split; [exact D6|]. split.
  - exists lm, (field_data w3 20). split; [exact EL|]. split; [exact D3|]. rewrite ELb, R2, R1.
    cbn [seen_challenge ch_flags ch_server_challenge]. unfold v1_nt_response, v1_lm_response.
    destruct (ESS (ch_flags ch)) eqn:EE; [|reflexivity]. do 3 f_equal.
    destruct Hr as [[Hc _] _]. unfold sub. cbn [N.to_nat Pos.to_nat Pos.iter_op Nat.add skipn].
    rewrite firstn_app_exact; [reflexivity|]. rewrite Hc. reflexivity.
  - unfold nt1_key. rewrite EL, D7. cbv zeta iota. rewrite ELb. f_equal.
    change (ch_flags ch) with (ch_flags (seen_challenge ch)).
    change (ch_server_challenge ch) with (ch_server_challenge (seen_challenge ch)).
    destruct (key_exchange (ch_flags (seen_challenge ch))) eqn:EX.
    + apply (C30_session_key_ntlmv1_lem _ _ _ _ _ _ _ _ _ _ _ _ _ _ _ M L Lc Hk A6 EX).
    + symmetry. apply (C31_key_exchange_key_lem _ _ _ _ _ _ _ _ _ _ _ _ _ _ _ M L Lc Hk A6 EX).
Qed.
(** If it does, the server never reads a reply. *)
Lemma C94_version_flag_lem : forall cc cs P e level user dom pw target c h ch r n a K,
  host_le cc = true -> host_le cs = true ->
  made cc P e level user dom pw target c -> level <= 2 ->
  valid_challenge ch -> sendable_challenge cc ch -> sendable_challenge cs ch -> N.testbit (ch_flags ch) 25 = true ->
  is_entropy r -> ~ logon cc cs P c h ch r n a K.
Proof.
  intros cc cs P e level user dom pw target c h ch r n a K Lc Ls M L V Sc Ss H25 Hr (w1 & w2 & w3 & seen & A1 & A2 & A3 & A4 & A5 & A6 & A7).
  assert (HE : host_le cc = host_le cs) by congruence.
  assert (ES : seen = seen_challenge ch).
  { pose proof Ss as [Fs _]. apply fitsb_fits in Fs. rewrite challenge_serialize in A3 by exact V. rewrite Fs in A3. apply val_inj in A3. subst w2.
    rewrite <- (same_challenge_bytes _ _ HE), <- (app_nil_r (challenge_bytes cc ch)), challenge_seen in A4 by assumption.
    now injection A4. }
  subst seen. destruct (seen_challenge_good cc ch V Sc) as [V' _].
  pose proof (handshake_accepts h (seen_challenge ch)) as HA.
  pose proof (bytes_negotiable _ _ _ _ _ _ _ _ _ _ _ _ M A5) as N.
  pose proof (made_workstation_exists _ _ _ _ _ _ _ _ _ M) as W.
  destruct (C24_panics_exactly_lem cc P e level user dom pw target c (h ++ [OpNegociate; OpRecvChallenge (seen_challenge ch)]) r _ M W Hr)
    as [_ [B _]].
  { intros ch' A'. rewrite (proj1 (C23_no_other_challenge_lem _ _ _ _ _ _ _ _ _ _ r M) _ _ HA A'). exact V'. }
  destruct (B (ex_intro _ _ A5)) as (_ & ch' & A' & RF).
  rewrite (proj1 (C23_no_other_challenge_lem _ _ _ _ _ _ _ _ _ _ r M) _ _ HA A') in RF.
  destruct (logon_wire cc cs P e level user dom pw target c h ch r Lc Ls M N V Sc Ss Hr RF)
    as (_ & _ & _ & w3' & K' & _ & _ & _ & _ & _ & C6 & C7).
  assert (w3' = w3) by (destruct C6 as (_ & _ & _ & _ & B1 & _); congruence). subst w3'.
  rewrite (C42_version_flag_breaks_lem cs P e level user dom pw (seen_challenge ch) r w3 L C7 H25) in A6. discriminate A6.
Qed.
Lemma sealed_sendable cfg : host_le cfg = true -> sendable_challenge cfg sealed_challenge.
Proof.
  intros H. split; [|split; [|split; [|reflexivity]]].
  - destruct cfg as [d s w l]. cbn in H. subst l. repeat constructor; vm_compute; discriminate.
  - repeat constructor; try (vm_compute; reflexivity). intros _. vm_compute. discriminate.
  - right. exists (removelast sample_infos). reflexivity.
Qed.
(** A debug client and a strict release server on Windows; the domain the server reads. *)
Example C94_ex_lem :
  let cs := mkConfig false true true true in
  made cfg_debug real_prims host_env 3 str_User str_Domain str_Password str_target (sample_client 3)
  /\ negotiable 3 str_Domain /\ workstation_name real_prims host_env (Some str_COMPUTER)
  /\ valid_challenge sealed_challenge /\ sendable_challenge cfg_debug sealed_challenge /\ sendable_challenge cs sealed_challenge
  /\ is_entropy sample_entropy /\ host_time cs (e_clock sample_entropy) /\ response_time sealed_challenge sample_entropy <> None
  /\ 28 + len (av_list_bytes cs (ch_target_infos sealed_challenge)) <= 65535
  /\ seen_text (Some str_User) = Some str_User
  /\ N.testbit (ch_flags sealed_challenge) 25 = false /\ N.testbit (ch_flags versioned_challenge) 25 = true
  /\ sendable_challenge cs versioned_challenge.
Proof.
  cbv zeta. split; [apply sample_made|]. split; [apply sample_negotiable; lia|]. split; [exact sample_workstation|].
  split; [exact sealed_valid|]. split; [now apply sealed_sendable|]. split; [now apply sealed_sendable|].
  split; [apply sample_entropy_ok|]. split; [intros _; vm_compute; discriminate|]. split; [vm_compute; discriminate|].
  split; [vm_compute; discriminate|]. split; [reflexivity|]. split; [reflexivity|]. split; [reflexivity|].
  split; [repeat constructor; vm_compute; discriminate|]. split; [constructor|]. split; [now left|vm_compute; auto].
Qed.
