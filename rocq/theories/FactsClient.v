(** Facts about the client. *)
From Coq Require Import ZifyBool ZifyNat ZifyN.
From Verif Require Import Base Nom Unicode Wire Structures Prims Messages Crypto Client Spec SpecBuild SpecCrypto SpecClient Lib Encode Decode RoundTrip Parse Samples FactsEncode FactsDecode FactsBuild DesKey RealPrims FactsCrypto SamplesClient History Reply.

Ltac Zify.zify_post_hook ::= Z.div_mod_to_equations.

(** ** The sample client *)
Lemma sample_made level : made cfg_debug real_prims host_env level str_User str_Domain str_Password str_target (sample_client level).
Proof.
  split; [exact real_prims_ok|]. split; [closed_valid|]. split; [closed_valid|]. split; [closed_valid|].
  split; [closed_valid|]. vm_compute. reflexivity.
Qed.
Lemma sample_accepts ch : accepts (sample_history ch) ch.
Proof.
  exists [OpAuthenticate sample_entropy; OpRecvChallenge old_challenge; OpNegociate; OpRecvChallenge versioned_challenge],
    [OpAuthenticate sample_entropy], [OpRecvChallenge old_challenge].
  split; [reflexivity|]. split; repeat constructor; intros [].
Qed.
Lemma sample_entropy_ok : is_entropy sample_entropy.
Proof. closed_valid. Qed.
Lemma sealed_valid : valid_challenge sealed_challenge.
Proof. closed_valid. Qed.
Lemma old_valid : valid_challenge old_challenge.
Proof. closed_valid. Qed.
Lemma versioned_valid : valid_challenge versioned_challenge.
Proof. closed_valid. Qed.
Lemma sample_workstation : workstation_name real_prims host_env (Some str_COMPUTER).
Proof. reflexivity. Qed.
Lemma sample_negotiable level : level <= 5 -> negotiable level str_Domain.
Proof. intros H. split; [exact H|]. vm_compute. discriminate. Qed.
Lemma sample_replies level ch : valid_challenge ch ->
  answer cfg_debug real_prims (sample_client level) (sample_history ch) (OpAuthenticate sample_entropy)
    = OutBytes (sample_reply level ch) ->
  replies cfg_debug real_prims host_env level str_User str_Domain str_Password ch sample_entropy (sample_reply level ch).
Proof.
  intros Hv H. exists str_target, (sample_client level), (sample_history ch).
  split; [apply sample_made|]. split; [exact Hv|]. split; [apply sample_entropy_ok|].
  split; [apply sample_accepts|exact H].
Qed.

(** ** From replies to messages *)
Lemma made_level cfg P e level user dom pw target c : made cfg P e level user dom pw target c ->
  cl_level c = level /\ cl_domain c = dom.
Proof. intros H. apply made_fields in H. destruct H as (klm & ws & _ & _ & ->). split; reflexivity. Qed.
Lemma negotiable_dec level dom : negotiable level dom \/ ~ negotiable level dom.
Proof. unfold negotiable. lia. Qed.
Lemma bytes_negotiable cfg P e level user dom pw target c h r b : made cfg P e level user dom pw target c ->
  answer cfg P c h (OpAuthenticate r) = OutBytes b -> negotiable level dom.
Proof.
  intros Hm H. destruct (negotiable_dec level dom) as [N|N]; [exact N|].
  destruct (made_level _ _ _ _ _ _ _ _ _ Hm) as [L D]. rewrite <- L, <- D in N.
  destruct (answer_not_negotiable cfg P c (made_fresh _ _ _ _ _ _ _ _ _ Hm) h r N) as [w E]. congruence.
Qed.
Lemma replies_v1 cfg P e level user dom pw ch r b ws klm : replies cfg P e level user dom pw ch r b -> level <= 2 ->
  workstation_name P e ws -> lmowfv1 P pw = Val klm ->
  let a := v1_message P level (ntowfv1 cfg P pw) klm user dom ws ch r in
  prims_ok P /\ valid_challenge ch /\ is_entropy r /\ valid_authenticate a
  /\ fits (authenticate_fields cfg a) /\ b = authenticate_bytes cfg a.
Proof.
  intros (target & c & h & Hm & Hv & Hr & Ha & H) L Hw Hk.
  pose proof (bytes_negotiable _ _ _ _ _ _ _ _ _ _ _ _ Hm H) as N.
  destruct (answer_v1 _ _ _ _ _ _ _ _ _ _ _ _ _ _ Hm L N Hw Hk Hv Hr Ha) as (V & E).
  intros a. fold a in V, E. destruct Hm as (HP & _). split; [exact HP|]. split; [exact Hv|]. split; [exact Hr|].
  split; [exact V|]. rewrite H in E. destruct (fitsb (authenticate_fields cfg a)) eqn:F; [|discriminate].
  split; [now apply fitsb_fits|]. apply outbytes_inj in E. congruence.
Qed.
Lemma replies_v2 cfg P e level user dom pw ch r b ws : replies cfg P e level user dom pw ch r b -> 3 <= level ->
  workstation_name P e ws ->
  let k2 := ntowfv2 cfg P user (ntowfv1 cfg P pw) dom in
  prims_ok P /\ valid_challenge ch /\ is_entropy r /\ negotiable level dom /\ reply_fits cfg level user dom ws ch r
  /\ exists t, response_time ch r = Some t /\ valid_filetime t /\
       let a := v2_message cfg P k2 user dom ws (neg_message level dom) ch r t in
       valid_authenticate a /\ fits (authenticate_fields cfg a) /\ b = authenticate_bytes cfg a.
Proof.
  intros (target & c & h & Hm & Hv & Hr & Ha & H) L Hw k2.
  pose proof (bytes_negotiable _ _ _ _ _ _ _ _ _ _ _ _ Hm H) as N.
  destruct (answer_v2 _ _ _ _ _ _ _ _ _ _ _ _ _ Hm (conj L (proj1 N)) N Hw Hv Hr Ha) as (E & _).
  destruct (E _ H) as (F & t & T1 & T2 & T3).
  split; [apply Hm|]. split; [exact Hv|]. split; [exact Hr|]. split; [exact N|]. split; [exact F|].
  exists t. split; [exact T1|]. split; [exact T2|]. exact T3.
Qed.
Lemma replies_workstation cfg P e level user dom pw ch r b : replies cfg P e level user dom pw ch r b ->
  exists ws, workstation_name P e ws.
Proof.
  intros (target & c & h & Hm & _). exists (cl_workstation c). eapply made_workstation_exists, Hm.
Qed.
Lemma replies_lm cfg P e level user dom pw ch r b : replies cfg P e level user dom pw ch r b ->
  exists klm, lmowfv1 P pw = Val klm.
Proof.
  intros (target & c & h & Hm & _). apply made_fields in Hm. destruct Hm as (klm & ws & E & _). eauto.
Qed.

(** ** C23 *)
(** Whatever happened before and whatever other challenges were offered, the
    reply is the one of the plain handshake with the accepted challenge. *)
Lemma C23_accepted_challenge_counts_lem : forall cfg P e level user dom pw target c h ch r,
  made cfg P e level user dom pw target c -> negotiable level dom -> accepts h ch ->
  answer cfg P c h (OpAuthenticate r) = answer cfg P c [OpNegociate; OpRecvChallenge ch] (OpAuthenticate r).
Proof.
  intros cfg P e level user dom pw target c h ch r Hm N Ha.
  destruct (made_level _ _ _ _ _ _ _ _ _ Hm) as [L D]. rewrite <- L, <- D in N.
  pose proof (made_fresh _ _ _ _ _ _ _ _ _ Hm) as F.
  rewrite !(answer_accepts cfg P c F _ ch) by (try exact N; try exact Ha; exists [], [], []; repeat constructor).
  reflexivity.
Qed.
(** At most one challenge is accepted at a time; without one there is no reply. *)
Lemma C23_no_other_challenge_lem : forall cfg P e level user dom pw target c h r,
  made cfg P e level user dom pw target c ->
  (forall ch ch', accepts h ch -> accepts h ch' -> ch' = ch)
  /\ ((forall ch, ~ accepts h ch) -> exists w, answer cfg P c h (OpAuthenticate r) = OutPanic w).
Proof.
  intros cfg P e level user dom pw target c h r Hm. split.
  - intros ch ch' H H'. destruct (phase h) as [(_ & _ & A)|[(_ & _ & A)|(ch0 & _ & _ & _ & A)]];
      [now apply A in H|now apply A in H|]. rewrite (A _ H), (A _ H'). reflexivity.
  - apply answer_not_accepts. eapply made_fresh, Hm.
Qed.
(** Which challenge is accepted: one that comes while the last negotiate call
    is unanswered; a negotiate call always restarts. *)
Lemma C23_acceptance_lem : forall h,
  (forall ch, ~ accepts [] ch)
  /\ (forall ch, ~ accepts (h ++ [OpNegociate]) ch)
  /\ (forall ch r, accepts (h ++ [OpAuthenticate r]) ch <-> accepts h ch)
  /\ (forall ch ch', accepts (h ++ [OpRecvChallenge ch']) ch
        <-> accepts h ch \/ (awaiting h /\ ch' = ch))
  /\ (awaiting h -> forall ch, ~ accepts h ch).
Proof.
  intros h. split; [apply not_accepts_nil|]. split; [intros ch H; now apply accepts_snoc in H|].
  split; [intros ch r; exact (accepts_snoc h (OpAuthenticate r) ch)|].
  split; [intros ch ch'; exact (accepts_snoc h (OpRecvChallenge ch') ch)|].
  intros A. destruct (phase h) as [(_ & B & _)|[(_ & _ & B)|(ch0 & _ & B & _)]]; [contradiction|exact B|contradiction].
Qed.
(** The protocol state after any history. *)
Lemma C23_protocol_state_lem : forall cfg P e level user dom pw target c,
  made cfg P e level user dom pw target c -> negotiable level dom ->
  exists n, answer cfg P c [] OpNegociate = OutBytes (negotiate_bytes n) /\ forall h,
    (untouched h -> cl_state (run cfg P c h) = StNew)
    /\ (awaiting h -> cl_state (run cfg P c h) = StNegotiateSent n)
    /\ (forall ch, accepts h ch -> cl_state (run cfg P c h) = StChallengeReceived n ch
                                   \/ exists a, cl_state (run cfg P c h) = StAuthenticateSent n ch a)
    /\ (untouched h \/ awaiting h \/ exists ch, accepts h ch).
Proof.
  intros cfg P e level user dom pw target c Hm N.
  destruct (made_level _ _ _ _ _ _ _ _ _ Hm) as [L D]. rewrite <- L, <- D in N.
  pose proof (made_fresh _ _ _ _ _ _ _ _ _ Hm) as F.
  exists (neg_message (cl_level c) (cl_domain c)). split.
  - unfold answer. cbn [step]. rewrite (send_neg_run cfg P c F [] N). reflexivity.
  - intros h. destruct (run_states cfg P c F h N) as (H1 & H2 & H3).
    split; [exact H1|]. split; [exact H2|]. split; [exact H3|].
    destruct (phase h) as [(A & _)|[(A & _)|(ch0 & A & _)]]; eauto.
Qed.
(** Offering a challenge never fails. *)
Lemma C23_recv_challenge_never_panics_lem : forall cfg P c h ch,
  answer cfg P c h (OpRecvChallenge ch) = OutUnit.
Proof. reflexivity. Qed.
Example C23_ex_lem : made cfg_debug real_prims host_env 3 str_User str_Domain str_Password str_target (sample_client 3)
  /\ negotiable 3 str_Domain /\ accepts (sample_history sealed_challenge) sealed_challenge
  /\ answer cfg_debug real_prims (sample_client 3) (sample_history sealed_challenge) (OpAuthenticate sample_entropy)
     = OutBytes (sample_reply 3 sealed_challenge)
  /\ len (sample_reply 3 sealed_challenge) = 306.
Proof.
  split; [apply sample_made|]. split; [apply sample_negotiable; lia|]. split; [apply sample_accepts|].
  split; vm_compute; reflexivity.
Qed.

(** ** C24 *)
Lemma answer_shape cfg P c h r :
  (exists b, answer cfg P c h (OpAuthenticate r) = OutBytes b)
  \/ exists w, answer cfg P c h (OpAuthenticate r) = OutPanic w.
Proof.
  unfold answer. cbn [step]. destruct (send_authenticate _ _ _ _) as [[b c']|w]; cbn [snd]; eauto.
Qed.
Lemma v1_reply_fits cfg level user dom ws ch r : level <= 2 ->
  (reply_fits cfg level user dom ws ch r <-> names_fit user dom ws).
Proof.
  intros L. unfold reply_fits, names_fit. split; [tauto|]. intros (A & B & C).
  split; [exact A|]. split; [exact B|]. split; [exact C|]. intros H. lia.
Qed.
Lemma answer_iff cfg P e level user dom pw target c h ch r ws :
  made cfg P e level user dom pw target c -> negotiable level dom -> workstation_name P e ws ->
  valid_challenge ch -> is_entropy r -> accepts h ch ->
  (exists b, answer cfg P c h (OpAuthenticate r) = OutBytes b) <-> reply_fits cfg level user dom ws ch r.
Proof.
  intros Hm N Hw Hv Hr Ha. destruct (N.le_gt_cases level 2) as [L|L].
  - destruct (made_fields _ _ _ _ _ _ _ _ _ Hm) as (klm & ws' & Hk & _).
    destruct (answer_v1 _ _ _ _ _ _ _ _ _ _ _ _ _ _ Hm L N Hw Hk Hv Hr Ha) as (V & E).
    rewrite v1_reply_fits by exact L. destruct Hm as (HP & _).
    rewrite <- (v1_message_fits cfg P level (ntowfv1 cfg P pw) klm user dom ws ch r HP
                  (ntowfv1_buffer _ _ _ HP) (lmowfv1_buffer _ _ _ HP Hk) (proj1 (proj2 (proj2 Hv))) Hr).
    rewrite <- fitsb_fits. rewrite E. split; [|intros ->; eauto].
    intros [b Eb]. destruct (fitsb _) eqn:F; [reflexivity|discriminate].
  - assert (L' : 3 <= level <= 5) by (destruct N; lia).
    destruct (answer_v2 _ _ _ _ _ _ _ _ _ _ _ _ _ Hm L' N Hw Hv Hr Ha) as (E & E').
    split; [|exact E']. intros [b Eb]. exact (proj1 (E _ Eb)).
Qed.
(** Exactly when [send_authenticate] panics, after any history of calls with
    well-formed challenges. *)
Lemma C24_panics_exactly_lem : forall cfg P e level user dom pw target c h r ws,
  made cfg P e level user dom pw target c -> workstation_name P e ws -> is_entropy r ->
  (forall ch, accepts h ch -> valid_challenge ch) ->
  ((exists w, answer cfg P c h (OpAuthenticate r) = OutPanic w)
   <-> ~ (negotiable level dom /\ exists ch, accepts h ch /\ reply_fits cfg level user dom ws ch r))
  /\ ((exists b, answer cfg P c h (OpAuthenticate r) = OutBytes b)
   <-> negotiable level dom /\ exists ch, accepts h ch /\ reply_fits cfg level user dom ws ch r).
Proof.
  intros cfg P e level user dom pw target c h r ws Hm Hw Hr Hv.
  assert (B : (exists b, answer cfg P c h (OpAuthenticate r) = OutBytes b)
   <-> negotiable level dom /\ exists ch, accepts h ch /\ reply_fits cfg level user dom ws ch r).
  { split.
    - intros [b Eb]. pose proof (bytes_negotiable _ _ _ _ _ _ _ _ _ _ _ _ Hm Eb) as N. split; [exact N|].
      destruct (phase h) as [(_ & _ & A)|[(_ & _ & A)|(ch & A & _)]];
        [destruct (proj2 (C23_no_other_challenge_lem _ _ _ _ _ _ _ _ _ h r Hm) A) as [w E]; congruence
        |destruct (proj2 (C23_no_other_challenge_lem _ _ _ _ _ _ _ _ _ h r Hm) A) as [w E]; congruence|].
      exists ch. split; [exact A|]. apply (answer_iff _ _ _ _ _ _ _ _ _ h ch r ws Hm N Hw (Hv _ A) Hr A). eauto.
    - intros (N & ch & A & F). now apply (answer_iff _ _ _ _ _ _ _ _ _ h ch r ws Hm N Hw (Hv _ A) Hr A). }
  split; [|exact B]. rewrite <- B. split.
  - intros [w E] [b Eb]. congruence.
  - intros H. destruct (answer_shape cfg P c h r) as [A|A]; [contradiction|exact A].
Qed.
(** The sizes that matter: at levels 0 to 2 only the three names. *)
Lemma C24_levels_0_to_2_lem : forall cfg level user dom ws ch r, level <= 2 ->
  reply_fits cfg level user dom ws ch r <->
  len (utf16le user) <= 65535 /\ len (utf16le dom) <= 65535 /\ len (content (opt_map utf16le ws)) <= 65535.
Proof. intros cfg level user dom ws ch r. exact (v1_reply_fits cfg level user dom ws ch r). Qed.
Example C24_ex_lem : workstation_name real_prims host_env (Some str_COMPUTER)
  /\ (forall ch, accepts (sample_history sealed_challenge) ch -> valid_challenge ch)
  /\ reply_fits cfg_debug 3 str_User str_Domain (Some str_COMPUTER) sealed_challenge sample_entropy
  /\ answer cfg_debug real_prims (sample_client 3) [OpNegociate] (OpAuthenticate sample_entropy) = OutPanic PUnreachable.
Proof.
  split; [exact sample_workstation|]. split.
  - intros ch H. rewrite (proj1 (C23_no_other_challenge_lem _ _ _ _ _ _ _ _ _ _ sample_entropy (sample_made 3)) _ _ (sample_accepts sealed_challenge) H).
    exact sealed_valid.
  - split; [|vm_compute; reflexivity].
    apply (answer_iff cfg_debug real_prims host_env 3 str_User str_Domain str_Password str_target (sample_client 3)
             (sample_history sealed_challenge) sealed_challenge sample_entropy (Some str_COMPUTER)).
    + apply sample_made.
    + apply sample_negotiable. lia.
    + exact sample_workstation.
    + exact sealed_valid.
    + exact sample_entropy_ok.
    + apply sample_accepts.
    + eexists. vm_compute. reflexivity.
Qed.

(** ** C25 *)
Lemma neg_flags_bits level b i :
  N.testbit (neg_flags level b) i = existsb (N.eqb i) (level_bits level ++ if b then [12] else []).
Proof.
  unfold neg_flags, level_bits.
  destruct (level =? 0), (level =? 1), b;
    (assert (D : i < 31 \/ 31 <= i) by lia; destruct D as [D|D];
     [assert (E : exists k : nat, (k < 31)%nat /\ i = N.of_nat k) by (exists (N.to_nat i); lia);
      destruct E as (k & Hk & ->);
      do 31 (destruct k as [|k]; [vm_compute; reflexivity|]); lia
     |rewrite (N.bits_above_log2 _ i) by (eapply N.lt_le_trans; [|exact D]; vm_compute; reflexivity);
      symmetry; apply not_true_iff_false; intros H; apply existsb_exists in H;
      destruct H as (x & Hx & E); apply N.eqb_eq in E; subst x; cbn in Hx; lia]).
Qed.
(** In every state the same bytes, which decode to a message with exactly the
    flags of the level and the domain. *)
Lemma C25_negotiate_sent_lem : forall cfg P e level user dom pw target c,
  made cfg P e level user dom pw target c -> negotiable level dom ->
  exists b n, (forall h, answer cfg P c h OpNegociate = OutBytes b)
    /\ (forall cfg', negotiate_de cfg' b = POk [] n)
    /\ (forall i, N.testbit (n_flags n) i
          = existsb (N.eqb i) (level_bits level ++ match dom with [] => [] | _ => [12] end))
    /\ n_domain n = match dom with [] => None | _ => Some dom end
    /\ n_workstation n = None /\ n_version n = None.
Proof.
  intros cfg P e level user dom pw target c Hm N.
  destruct (made_level _ _ _ _ _ _ _ _ _ Hm) as [L D].
  pose proof (made_fresh _ _ _ _ _ _ _ _ _ Hm) as F.
  assert (Hd : is_string dom) by apply Hm.
  exists (negotiate_bytes (neg_message level dom)), (neg_message level dom). split; [|split; [|split]].
  - intros h. unfold answer. cbn [step]. rewrite <- L, <- D in *. rewrite (send_neg_run cfg P c F h N). reflexivity.
  - intros cfg'. rewrite <- (app_nil_r (negotiate_bytes _)). rewrite negotiate_round_trip; [reflexivity|now apply neg_message_valid|].
    split; [apply neg_message_fits, N|]. split; [destruct dom; discriminate|]. split; [discriminate|].
    cbn [revision_ok neg_message n_version n_flags]. rewrite neg_flags_bits. unfold level_bits.
    destruct (level =? 0), (level =? 1), dom; reflexivity.
  - intros i. cbn [neg_message n_flags]. rewrite neg_flags_bits. now destruct dom.
  - split; [now destruct dom|]. split; reflexivity.
Qed.
(** Other levels, and domains of 64 KiB or more, panic in every state. *)
Lemma C25_unsupported_panics_lem : forall cfg P e level user dom pw target c h,
  made cfg P e level user dom pw target c -> ~ negotiable level dom ->
  exists w, answer cfg P c h OpNegociate = OutPanic w.
Proof.
  intros cfg P e level user dom pw target c h Hm N.
  destruct (made_level _ _ _ _ _ _ _ _ _ Hm) as [L D]. rewrite <- L, <- D in N.
  destruct (send_neg_run_panic cfg P c (made_fresh _ _ _ _ _ _ _ _ _ Hm) h N) as [w E].
  exists w. unfold answer. cbn [step]. now rewrite E.
Qed.
Example C25_ex_lem : negotiable 2 str_Domain /\ ~ negotiable 6 str_Domain
  /\ answer cfg_debug real_prims (sample_client 2) [] OpNegociate
     = OutBytes [78; 84; 76; 77; 83; 83; 80; 0; 1; 0; 0; 0; 55; 144; 138; 96; 6; 0; 6; 0; 32; 0; 0; 0;
                 0; 0; 0; 0; 0; 0; 0; 0; 68; 111; 109; 97; 105; 110].
Proof.
  split; [apply sample_negotiable; lia|]. split; [intros [H _]; lia|]. vm_compute. reflexivity.
Qed.

(** ** C26 *)
(** Two clients for the same account on hosts with the same name, whose
    passwords have the same hashes, with any targets and any histories that
    accept the same challenge, return the same from a call that draws the same
    random bytes and time. *)
Lemma C26_reply_determined_lem : forall cfg P e e' level user dom pw pw' target target' c c' h h' ws ch r,
  made cfg P e level user dom pw target c -> made cfg P e' level user dom pw' target' c' ->
  workstation_name P e ws -> workstation_name P e' ws ->
  lmowfv1 P pw = lmowfv1 P pw' -> ntowfv1 cfg P pw = ntowfv1 cfg P pw' ->
  accepts h ch -> accepts h' ch -> negotiable level dom ->
  answer cfg P c h (OpAuthenticate r) = answer cfg P c' h' (OpAuthenticate r).
Proof.
  intros cfg P e e' level user dom pw pw' target target' c c' h h' ws ch r Hm Hm' Hw Hw' Hl Hn Ha Ha' N.
  destruct (made_level _ _ _ _ _ _ _ _ _ Hm) as [L D]. destruct (made_level _ _ _ _ _ _ _ _ _ Hm') as [L' D'].
  rewrite (answer_accepts cfg P c (made_fresh _ _ _ _ _ _ _ _ _ Hm) h ch r) by (rewrite ?L, ?D; assumption).
  rewrite (answer_accepts cfg P c' (made_fresh _ _ _ _ _ _ _ _ _ Hm') h' ch r) by (rewrite ?L', ?D'; assumption).
  destruct (made_workstation _ _ _ _ _ _ _ _ _ _ Hm Hw) as [W _].
  destruct (made_workstation _ _ _ _ _ _ _ _ _ _ Hm' Hw') as [W' _].
  destruct (made_fields _ _ _ _ _ _ _ _ _ Hm) as (k & w & K & _ & ->).
  destruct (made_fields _ _ _ _ _ _ _ _ _ Hm') as (k' & w' & K' & _ & ->).
  cbn [cl_workstation] in W, W'. subst w w'.
  assert (k' = k) by (apply val_inj; congruence). subst k'. rewrite Hn. reflexivity.
Qed.
(** The reply of one client does not depend on what it did before. *)
Lemma C26_history_irrelevant_lem : forall cfg P e level user dom pw target c h h' ch r,
  made cfg P e level user dom pw target c -> accepts h ch -> accepts h' ch ->
  negotiable level dom ->
  answer cfg P c h (OpAuthenticate r) = answer cfg P c h' (OpAuthenticate r).
Proof.
  intros cfg P e level user dom pw target c h h' ch r Hm Ha Ha' N.
  pose proof (made_workstation_exists _ _ _ _ _ _ _ _ _ Hm) as Hw.
  now apply (C26_reply_determined_lem cfg P e e level user dom pw pw target target c c h h' (cl_workstation c) ch r).
Qed.
(** "Password" and "Password" on two machines with the same name, found in two ways. *)
Example C26_ex_lem :
  let e' := mkEnv None None None None (Some [99; 111; 109; 112; 117; 116; 101; 114; 46; 99; 111; 109; 10]) in
  workstation_name real_prims host_env (Some str_COMPUTER) /\ workstation_name real_prims e' (Some str_COMPUTER)
  /\ (exists c', made cfg_debug real_prims e' 3 str_User str_Domain str_Password [] c')
  /\ accepts (sample_history sealed_challenge) sealed_challenge
  /\ accepts [OpNegociate; OpRecvChallenge sealed_challenge] sealed_challenge.
Proof.
  intros e'. split; [reflexivity|]. split.
  { apply (proj2 (proj1 (get_workstation_val real_prims e' (Some str_COMPUTER)) ltac:(vm_compute; reflexivity))). }
  split.
  { eexists. split; [exact real_prims_ok|]. split; [closed_valid|]. split; [closed_valid|]. split; [closed_valid|].
    split; [closed_valid|]. vm_compute. reflexivity. }
  split; [apply sample_accepts|]. exists [], [], []. repeat constructor.
Qed.
