(** Error reports: the error type chosen by the caller, locations, content. *)
From Coq Require Import Ascii String.
From Verif Require Import Base Nom Unicode Wire Structures Messages Errors Spec SpecErrors Lib Decode Parse
  ErrorsLib Report Samples.

(** ** C69 *)
(** Whatever the error type, a decoder gives the results of the model without error content. *)
Lemma C69_decoders_erase_lem : forall cfg A p q, decoder cfg A p q ->
  forall T b, erase (p T b) = q b.
Proof.
  intros cfg A p q D T b. destruct D;
    auto using er_flags, er_field, er_oem, er_unicode, er_buf, er_version, er_filetime, er_single_host, er_signature,
      er_av_id, er_av_flags, er_av_pair, er_many0, er_lmv1, er_lmv2, er_lm_challenge, er_ntv2, er_nt_challenge,
      er_negotiate, er_challenge, er_authenticate.
Qed.
(** Two error types: same value and rest, or both fail, or both ask for the same number of bytes, or both panic. *)
Lemma C69_error_type_lem : forall cfg A p q, decoder cfg A p q ->
  forall T T' b,
    (forall r a, p T b = XOk r a <-> p T' b = XOk r a)
    /\ ((exists e, p T b = XErr e) <-> (exists e, p T' b = XErr e))
    /\ (forall n, p T b = XIncomplete n <-> p T' b = XIncomplete n)
    /\ (forall w, p T b = XPanic w <-> p T' b = XPanic w).
Proof.
  intros cfg A p q D T T' b.
  pose proof (C69_decoders_erase_lem cfg A p q D T b) as H. rewrite <- (C69_decoders_erase_lem cfg A p q D T' b) in H.
  destruct (p T b) as [r a|e|n|w], (p T' b) as [r' a'|e'|n'|w']; cbn in H; try discriminate H;
    (split; [|split; [|split]]);
    try (intros; split; intros X; try discriminate X; try (destruct X; discriminate);
         inversion H; inversion X; subst; reflexivity).
  split; intros _; eauto.
Qed.
Example C69_ex_lem : 
  (exists a, x_authenticate unit_error cfg_debug (authenticate_bytes cfg_debug sample_authenticate) = XOk [] a)
  /\ (exists e, x_authenticate unit_error cfg_debug (firstn 70 (authenticate_bytes cfg_debug sample_authenticate)) = XErr e).
Proof. split; eexists; vm_compute; reflexivity. Qed.

(** ** C70 *)
Lemma decoder_related cfg A p q T1 T2 (R : err T1 -> err T2 -> Prop) b : decoder cfg A p q ->
  (forall i k, within b i -> R (from_error_kind T1 i k) (from_error_kind T2 i k)) ->
  (forall i k e1 e2, within b i -> R e1 e2 -> R (append_error T1 i k e1) (append_error T2 i k e2)) ->
  (forall e1 e2 f1 f2, R e1 e2 -> R f1 f2 -> R (or_error T1 e1 f1) (or_error T2 e2 f2)) ->
  (forall i n e1 e2, within b i -> R e1 e2 -> R (add_context T1 i n e1) (add_context T2 i n e2)) ->
  related T1 T2 R b (p T1 b) (p T2 b).
Proof.
  intros D H1 H2 H3 H4. pose proof (within_self b) as W.
  destruct D; cbv beta; first [apply rl_flags|apply rl_field|apply rl_oem|apply rl_unicode|apply rl_buf|apply rl_version
    |apply rl_filetime|apply rl_single_host|apply rl_signature|apply rl_av_id|apply rl_av_flags|apply rl_av_pair
    |solve [apply rl_many0; auto; apply rl_av_pair; auto]|apply rl_lmv1|apply rl_lmv2|apply rl_lm_challenge|apply rl_ntv2
    |apply rl_nt_challenge|apply rl_negotiate|apply rl_challenge|apply rl_authenticate]; auto.
Qed.
(** Every location in a verbose error is a part of the decoder's input, and the first entry says what failed. *)
Lemma C70_locations_lem : forall cfg A p q, decoder cfg A p q -> forall b e,
  p verbose_error b = XErr e ->
  Forall (fun x => within b (fst x)) e /\ exists s k l, e = (s, Nom k) :: l.
Proof.
  intros cfg A p q D b e H.
  set (P := fun e : err verbose_error => Forall (fun x : bytes * verbose_kind => within b (fst x)) e /\ exists s k l, e = (s, Nom k) :: l).
  assert (X : related verbose_error verbose_error (fun e1 e2 => P e1 /\ e1 = e2) b (p verbose_error b) (p verbose_error b)).
  { apply (decoder_related _ _ _ _ _ _ _ _ D); unfold P.
    - intros i k Hi. split; [|reflexivity]. split; [repeat constructor; exact Hi|]. cbn. eauto.
    - intros i k e1 e2 Hi [[H1 (s & k' & l & ->)] <-]. split; [|reflexivity]. split; [|cbn; eauto].
      cbn [append_error verbose_error]. apply Forall_app. split; [exact H1|repeat constructor; exact Hi].
    - intros e1 e2 f1 f2 [_ <-] [H1 <-]. split; [exact H1|reflexivity].
    - intros i n e1 e2 Hi [[H1 (s & k' & l & ->)] <-]. split; [|reflexivity]. split; [|cbn; eauto].
      cbn [add_context verbose_error]. apply Forall_app. split; [exact H1|repeat constructor; exact Hi]. }
  rewrite H in X. inversion X as [| ? ? HP | |]. exact (proj1 HP).
Qed.
(** A caller who uses nom's plain [Error] sees the first entry of the verbose report. *)
Lemma C70_plain_error_lem : forall cfg A p q, decoder cfg A p q -> forall b s k,
  p plain_error b = XErr (s, k) <-> exists l, p verbose_error b = XErr ((s, Nom k) :: l).
Proof.
  intros cfg A p q D b s k.
  assert (X : related plain_error verbose_error (fun e1 e2 => exists l, e2 = (fst e1, Nom (snd e1)) :: l) b
     (p plain_error b) (p verbose_error b)).
  { apply (decoder_related _ _ _ _ _ _ _ _ D).
    - intros i k' Hi. eexists. reflexivity.
    - intros i k' e1 e2 Hi [l ->]. eexists. reflexivity.
    - intros e1 e2 f1 f2 _ [l ->]. eexists. reflexivity.
    - intros i n e1 e2 Hi [l ->]. eexists. reflexivity. }
  destruct X as [r a W|e1 e2 [l ->]|n|w].
  - split; [discriminate|intros [l X]; discriminate].
  - split.
    + intros H. injection H as ->. cbn. eauto.
    + intros [l' H]. injection H as <- <- _. f_equal. now destruct e1.
  - split; [discriminate|intros [l X]; discriminate].
  - split; [discriminate|intros [l X]; discriminate].
Qed.
Example C70_ex_lem : let b := firstn 30 (negotiate_bytes sample_negotiate) in
  x_negotiate verbose_error cfg_debug b =
    XErr [(skipn 28 b, Nom KEof); (skipn 24 b, Context "Field"); (skipn 24 b, Context "workstation_field");
          (b, Context "Negotiate")]
  /\ x_negotiate plain_error cfg_debug b = XErr (skipn 28 b, KEof).
Proof. split; vm_compute; reflexivity. Qed.

(** ** C71, C72, C73: the messages *)
Lemma C71_negotiate_error_lem : forall cfg b e, is_bytes b ->
  (x_negotiate verbose_error cfg b = XErr e <-> negotiate_report b e).
Proof. exact negotiate_error. Qed.
Lemma C72_challenge_error_lem : forall cfg b e, is_bytes b ->
  (x_challenge verbose_error cfg b = XErr e <-> challenge_report cfg b e).
Proof. exact challenge_error. Qed.
Lemma C73_authenticate_error_lem : forall cfg b e, is_bytes b ->
  (x_authenticate verbose_error cfg b = XErr e <-> authenticate_report cfg b e).
Proof. exact authenticate_error. Qed.

(** the checks on the fixed part are the description of C06 *)
Lemma none_app b cs cs' : report b (cs ++ cs') = None <-> report b cs = None /\ report b cs' = None.
Proof. rewrite report_app. destruct (report b cs); split; try tauto; try discriminate. Qed.
Lemma none_inside b n o cs : report b (inside n o cs) = None <-> report b cs = None.
Proof. rewrite report_inside. destruct (report b cs); split; auto; discriminate. Qed.
Lemma none_cons b c cs : report b (c :: cs) = None <-> failure b c = None /\ report b cs = None.
Proof. cbn. destruct (failure b c); split; try tauto; try discriminate. intros [H _]. discriminate. Qed.
Lemma none_present b o w : failure b (present o w) = None <-> o + w <= len b.
Proof. unfold failure, present. cbn [c_at c_width c_good]. destruct (_ <? _) eqn:E; split; intros; try discriminate; try reflexivity; lia. Qed.
Lemma none_equal b o l : failure b (equal o l) = None <-> o + len l <= len b /\ sub b o (len l) = l.
Proof.
  unfold failure, equal. cbn [c_at c_width c_good].
  destruct (_ <? _) eqn:E; [split; [discriminate|lia]|]. rewrite <- beq_bytes_eq.
  destruct (beq_bytes _ _); split; intros X; try discriminate; try reflexivity; [split; [lia|reflexivity]|destruct X; discriminate].
Qed.
Lemma none_tagged b o l : failure b (tagged o l) = None <-> o + len l <= len b /\ sub b o (len l) = l.
Proof.
  unfold failure, tagged. cbn [c_at c_width c_good].
  destruct (_ <? _) eqn:E; [split; [discriminate|lia]|]. rewrite <- beq_bytes_eq.
  destruct (beq_bytes _ _); split; intros X; try discriminate; try reflexivity; [split; [lia|reflexivity]|destruct X; discriminate].
Qed.
Lemma none_nil b : report b [] = None <-> True.
Proof. now split. Qed.
Lemma none_field b o : report b (field_checks o) = None <-> o + 8 <= len b.
Proof. unfold field_checks. rewrite none_inside, !none_cons, !none_present, none_nil. lia. Qed.
Lemma none_version b o : report b (version_checks o) = None <-> version_ok b o = true.
Proof.
  unfold version_checks. rewrite none_inside, !none_app, !none_inside, !none_cons, !none_present, !none_equal, none_nil.
  change (len [0; 0; 0]) with 3. change (len [15]) with 1. unfold version_ok.
  rewrite !andb_true_iff, !N.eqb_eq, N.leb_le.
  destruct (N.le_gt_cases (o + 8) (len b)) as [H|H]; [|split; intros; exfalso; intuition lia].
  assert (Z : sub b (o + 7) 1 = [15] <-> byte_at b (o + 7) = 15).
  { change 1 with (1 + 0). rewrite sub_cons_eq by lia. rewrite sub_0. tauto. }
  assert (Y : sub b (o + 4) 3 = [0; 0; 0] <-> byte_at b (o + 4) = 0 /\ byte_at b (o + 5) = 0 /\ byte_at b (o + 6) = 0).
  { change 3 with (1 + (1 + (1 + 0))). rewrite !sub_cons_eq by lia. rewrite sub_0.
    replace (o + 4 + 1) with (o + 5) by lia. replace (o + 5 + 1) with (o + 6) by lia. tauto. }
  intuition (auto; lia).
Qed.
Lemma none_if_version b fo n o : report b (if_version b fo (inside n o (version_checks o))) = None <->
  opt_version_ok b (u32_at b fo) o = true.
Proof.
  unfold if_version, opt_version_ok. destruct (N.testbit _ _); [now rewrite none_inside, none_version|now rewrite none_nil].
Qed.
Lemma none_message b ty : is_bytes b -> ty < 256 ->
  (report b (message_checks ty) = None <-> 12 <= len b /\ is_message ty b).
Proof.
  intros Hb Ht. unfold message_checks, is_message. rewrite !none_cons, none_tagged, none_equal, none_nil.
  change (len NTLMSSP) with 8. change (len [ty; 0; 0; 0]) with 4.
  destruct (N.le_gt_cases 12 (len b)) as [H|H]; [|split; lia].
  assert (E : sub b 8 4 = [ty; 0; 0; 0] <-> u32_at b 8 = ty).
  { rewrite <- le_dec_u32, <- beq_bytes_eq, <- le_dec_lit, N.eqb_eq.
    - cbn [le_dec]. lia.
    - apply is_bytes_firstn, is_bytes_skipn, Hb.
    - repeat constructor. exact Ht.
    - pose proof (sub_len b 8 4 ltac:(lia)) as L. unfold len in L. cbn [length]. lia. }
  rewrite E. intuition lia.
Qed.
Lemma C71_fixed_part_lem : forall b, is_bytes b ->
  (report b (negotiate_checks b) = None <-> negotiate_header b).
Proof.
  intros b Hb. unfold negotiate_checks, negotiate_header.
  rewrite none_app, none_if_version, none_inside, !none_app, !none_inside, !none_field, none_message by (auto; lia).
  unfold flags_checks. rewrite none_inside, none_cons, none_present, none_nil. intuition lia.
Qed.
Lemma C72_fixed_part_lem : forall cfg b, is_bytes b ->
  (report b (challenge_checks cfg b) = None <-> challenge_header cfg b).
Proof.
  intros cfg b Hb. unfold challenge_checks, challenge_header.
  rewrite none_app, none_if_version, none_inside, !none_app, !none_inside, !none_field, none_message by (auto; lia).
  unfold flags_checks, buffer_checks. rewrite !none_inside, !none_cons, !none_present, none_nil.
  destruct (strict cfg).
  - rewrite none_equal. change (len [0; 0; 0; 0; 0; 0; 0; 0]) with 8. intuition (auto; lia).
  - rewrite none_present. intuition (auto; lia || discriminate).
Qed.
Lemma C73_fixed_part_lem : forall b, is_bytes b ->
  (report b (authenticate_checks b) = None <-> authenticate_header b).
Proof.
  intros b Hb. unfold authenticate_checks, authenticate_header.
  rewrite !none_app, none_if_version, none_inside, !none_app, !none_inside, !none_field, none_message by (auto; lia).
  unfold flags_checks, buffer_checks. rewrite !none_inside, !none_cons, !none_present, none_nil.
  intuition (auto; lia).
Qed.

(** Examples: a wrong revision in the version; a domain that is not UTF-8; target information that does not end;
    an NT response of 20 bytes; a session key of 15 bytes. *)
Example C71_ex_lem : 
  let b := firstn 39 (negotiate_bytes sample_negotiate) ++ [16] ++ skipn 40 (negotiate_bytes sample_negotiate) in
  let c := firstn 40 (negotiate_bytes sample_negotiate) ++ [255] ++ skipn 41 (negotiate_bytes sample_negotiate) in
  is_bytes b /\ is_bytes c
  /\ x_negotiate verbose_error cfg_debug b =
       XErr [(skipn 39 b, Nom KVerify); (skipn 39 b, Context "revision_count"); (skipn 32 b, Context "Version");
             (skipn 32 b, Context "Negotiate/version")]
  /\ x_negotiate verbose_error cfg_debug c =
       XErr (field_report c 16 [Nom KMapOpt; Context "OEM string"; Context "Field::get_data"; Context "domain"]).
Proof. repeat split; try (vm_compute; reflexivity); apply Forall_forall; intros x Hx; vm_compute in Hx; unfold is_u8; intuition lia. Qed.
Example C72_ex_lem :
  let m := challenge_bytes cfg_debug (mkChallenge (Some str_Server) 1619624453 [1; 35; 69; 103; 137; 171; 205; 239]
             [AvNbDomainName str_Domain; AvNbComputerName str_accent] None) in
  let b := firstn 44 m in
  is_bytes m
  /\ x_challenge verbose_error cfg_debug m =
       XErr (field_report m 40 [Nom KVerify; Context "Challenge/TargetInfos/EOL"])
  /\ x_challenge verbose_error cfg_debug b =
       XErr [(skipn 44 b, Nom KEof); (skipn 40 b, Context "Field"); (skipn 40 b, Context "target_infos_field");
             (b, Context "Challenge")].
Proof.
  repeat split; try (vm_compute; reflexivity).
  apply Forall_forall; intros x Hx; vm_compute in Hx; unfold is_u8; intuition lia.
Qed.
Example C73_ex_lem :
  let m k := authenticate_bytes cfg_debug (mkAuthenticate None (Some (NtV1 (repeat 4 k)))
      (Some str_Domain) (Some str_User) None (Some (repeat 9 15))
      1107296257 (Some sample_version) (repeat 5 16) None) in
  is_bytes (m 20%nat) /\ is_bytes (m 24%nat)
  /\ x_authenticate verbose_error cfg_debug (m 20%nat) =
       XErr (field_report (m 20%nat) 20
         [Nom KEof; Context "response"; Context "Ntv1Challenge"; Nom KAlt; Context "Field::get_data";
          Context "nt_challenge_response"])
  /\ x_authenticate verbose_error cfg_debug (m 24%nat) =
       XErr (field_report (m 24%nat) 52
         [Nom KEof; Context "encrypted_random_session_key"; Context "Field::get_data";
          Context "encrypted_random_session_key"]).
Proof.
  repeat split; try (vm_compute; reflexivity);
  apply Forall_forall; intros x Hx; vm_compute in Hx; unfold is_u8; intuition lia.
Qed.

(** ** C74: the structures *)
Lemma judge_iff {A} b (p : eparser verbose_error A) cs k e : judge b (p (drop 0 b)) cs k -> (forall e, k <> XErr e) ->
  (p b = XErr e <-> report b cs = Some e).
Proof. intros J Hk. rewrite drop_0 in J. now apply (judge_error b _ cs k). Qed.
(** Structures of fixed layout *)
Lemma C74_fixed_structures_lem : forall cfg b e, is_bytes b ->
  (x_flags verbose_error cfg b = XErr e <-> report b (flags_checks 0) = Some e)
  /\ (x_field verbose_error b = XErr e <-> report b (field_checks 0) = Some e)
  /\ (x_version verbose_error b = XErr e <-> report b (version_checks 0) = Some e)
  /\ (x_filetime verbose_error cfg b = XErr e <-> report b (filetime_checks cfg 0) = Some e)
  /\ (x_single_host verbose_error b = XErr e <-> report b single_host_checks = Some e)
  /\ (x_signature verbose_error b = XErr e <-> report b signature_checks = Some e)
  /\ (x_lmv1 verbose_error b = XErr e <-> report b lmv1_checks = Some e)
  /\ (x_lmv2 verbose_error b = XErr e <-> report b lmv2_checks = Some e)
  /\ (x_ntv1 verbose_error b = XErr e <-> report b ntv1_checks = Some e)
  /\ (x_ntv2 verbose_error cfg b = XErr e <-> report b (ntv2_checks cfg) = Some e).
Proof.
  intros cfg b e Hb.
  destruct (version_judge b 0 Hb) as [v1 J1]. destruct (single_host_judge b Hb) as [v2 J2].
  destruct (signature_judge b Hb) as [v3 J3]. destruct (ntv2_judge cfg b Hb) as (k & Hk & J4).
  split; [eapply judge_iff; [apply flags_judge|discriminate]|].
  split; [eapply judge_iff; [apply field_judge|discriminate]|].
  split; [eapply judge_iff; [exact J1|discriminate]|].
  split; [eapply judge_iff; [apply filetime_judge, Hb|discriminate]|].
  split; [eapply judge_error; [exact J2|discriminate]|].
  split; [eapply judge_error; [exact J3|discriminate]|].
  split; [eapply judge_error; [apply lmv1_judge|discriminate]|].
  split; [eapply judge_error; [apply lmv2_judge|discriminate]|].
  split; [eapply judge_error; [apply ntv1_judge|discriminate]|].
  eapply judge_error; [exact J4|exact Hk].
Qed.
(** AV pairs *)
Lemma C74_av_pair_lem : forall cfg b e, is_bytes b ->
  (x_av_pair verbose_error cfg b = XErr e <-> av_report cfg b = Some e).
Proof. exact av_pair_report. Qed.
(** Responses: whichever form was meant, a failure is reported as a short NTLMv1 response. *)
Lemma C74_responses_lem : forall cfg b e, is_bytes b ->
  (x_nt_challenge verbose_error cfg b = XErr e <->
   len b < 24 /\ e = [(b, Nom KEof); (b, Context "response"); (b, Context "Ntv1Challenge"); (b, Nom KAlt)])
  /\ (x_lm_challenge verbose_error b = XErr e <->
   len b < 24 /\ e = [(b, Nom KEof); (b, Context "response"); (b, Context "Lmv1Challenge"); (b, Nom KAlt)]).
Proof. intros cfg b e Hb. split; [now apply nt_report|apply lm_report]. Qed.
(** Strings read as UTF-16 and lists of AV pairs never report an error. *)
Lemma C74_never_lem : forall cfg b e, is_bytes b ->
  x_unicode verbose_error b <> XErr e
  /\ x_many0 verbose_error (x_av_pair verbose_error cfg) b <> XErr e.
Proof.
  intros cfg b e Hb. split; [rewrite unicode_ok; discriminate|].
  apply not_error. rewrite (er_many0 _ _ (av_pair_de cfg)) by apply er_av_pair. now apply many0_no_error.
Qed.
Example C74_ex_lem :
  (* identifier 11, a timestamp of 7 bytes, flags with an unknown bit *)
  x_av_pair verbose_error cfg_debug [11; 0; 0; 0]
    = XErr [([11; 0; 0; 0], Nom KMapOpt); ([11; 0; 0; 0], Context "AvId"); ([11; 0; 0; 0], Context "AvPair")]
  /\ x_av_pair verbose_error cfg_debug [7; 0; 7; 0; 1; 2; 3; 4; 5; 6; 7; 99]
    = XErr [([5; 6; 7], Nom KEof); ([1; 2; 3; 4; 5; 6; 7], Context "FileTime")]
  /\ x_av_pair verbose_error cfg_debug [6; 0; 4; 0; 8; 0; 0; 0]
    = XErr [([8; 0; 0; 0], Nom KVerify); ([8; 0; 0; 0], Context "MsvAvFlags")]
  /\ x_ntv2 verbose_error cfg_debug (repeat 1 30)
    = XErr [(repeat 1 28, Nom KVerify); (repeat 1 28, Context "Reserved1"); (repeat 1 30, Context "Ntv2Challenge")]
  /\ x_nt_challenge verbose_error cfg_debug (repeat 1 30) = XOk (repeat 1 6) (NtV1 (repeat 1 24)).
Proof. repeat split; vm_compute; reflexivity. Qed.
