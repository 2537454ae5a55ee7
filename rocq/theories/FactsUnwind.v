(** Calls that panic half-way. *)
From Coq Require Import ZifyBool ZifyNat ZifyN.
From Verif Require Import Base Nom Unicode Wire Structures Prims Messages Crypto Client Unwind Spec SpecBuild SpecCrypto SpecClient SpecUnwind Lib Encode Decode RoundTrip Parse Samples FactsEncode FactsDecode FactsBuild DesKey RealPrims FactsCrypto SamplesClient History SamplesUnwind Reply FactsClient FactsTrace.

(** A client as far as the calls of this file need it. *)
Definition plain (c : client) : Prop := cl_version c = None /\ is_string (cl_domain c).
Lemma made_plain cfg P e level user dom pw target c : made cfg P e level user dom pw target c -> plain c.
Proof. intros H. destruct (made_fresh _ _ _ _ _ _ _ _ _ H) as (_ & H1 & H2). now split. Qed.
Lemma plain_dress c s b : plain c -> plain (dress c s b).
Proof. now destruct c. Qed.

Definition seen_of (x : out) : seen :=
  match x with OutBytes b => SeenBytes b | OutUnit => SeenUnit | OutPanic r => SeenPanic (Code r) end.

Lemma negotiate_ser_slice c msg : plain c -> negociate_message c = Val msg -> forall n b,
  negotiate_ser msg [] = Val (n, b) -> slice b 0 n = Val b /\ send_negociate c = Val (b, dress c (StNegotiateSent msg) b).
Proof.
  intros (H1 & H2) E n b Es. destruct (N.le_gt_cases (cl_level c) 5) as [L|L].
  2:{ destruct (negociate_message_panic c L) as (w & Ew). congruence. }
  pose proof (send_negociate_val c L H1 H2) as HS. cbv zeta in HS.
  rewrite negociate_message_val in E by assumption. apply val_inj in E. subst msg.
  rewrite negotiate_ser_spec in Es by now apply neg_message_valid.
  destruct (fitsb _); [|discriminate Es]. apply val_inj in Es. cbn [app] in Es. injection Es as <- <-. split; [|exact HS].
  unfold slice. replace (len _ <? 0) with false by lia. rewrite N.ltb_irrefl. cbn [orb].
  now rewrite N.sub_0_r, skipn_O, len_nat, firstn_all.
Qed.

Lemma u_neg c m : plain c ->
  (exists b msg, send_negociate c = Val (b, dress c (StNegotiateSent msg) b)
     /\ u_send_negociate m c = (dress c (StNegotiateSent msg) b, if m_stderr1 m || m_stderr2 m then Unwound NoStderr else Done b))
  \/ (exists r b, send_negociate c = Panic r /\ u_send_negociate m c = (with_buffer c b, Unwound (Code r))).
Proof.
  intros Hp. unfold u_send_negociate, self_bind, u_read. destruct (negociate_message c) as [msg|r] eqn:E.
  2:{ right. exists r, (cl_buffer c). split; [unfold send_negociate; now rewrite E|]. f_equal. now destruct c. }
  unfold u_clear, u_serialize. cbn [cl_buffer with_buffer].
  destruct (negotiate_ser msg []) as [[n b]|r] eqn:Es.
  2:{ right. exists r, (m_torn m). split; [unfold send_negociate; rewrite E; cbn [obind]; now rewrite Es|]. reflexivity. }
  left. destruct (negotiate_ser_slice c msg Hp E n b Es) as (S1 & S2). exists b, msg. split; [exact S2|].
  unfold u_set_state, u_dbg. destruct (m_stderr1 m); cbn [orb]; [reflexivity|]. destruct (m_stderr2 m); [reflexivity|].
  cbn [cl_buffer with_buffer with_state]. rewrite S1. reflexivity.
Qed.
Lemma u_recv c ch : u_recv_challenge ch c = (recv_challenge c ch, Done tt).
Proof. unfold u_recv_challenge, recv_challenge, self_bind, u_replace_state, u_set_state. destruct (cl_state c) eqn:E; try reflexivity; now destruct c. Qed.
Lemma u_set_auth c a : u_set_authenticated_state a c = (set_authenticated_state c a, Done tt).
Proof. unfold u_set_authenticated_state, set_authenticated_state, self_bind, u_replace_state, u_set_state. destruct (cl_state c) eqn:E; try reflexivity; now destruct c. Qed.
Lemma u_auth cfg P c m r : m_random m = false ->
  (exists b c', send_authenticate cfg P c r = Val (b, c') /\ u_send_authenticate cfg P m r c = (c', Done b))
  \/ (exists w b, send_authenticate cfg P c r = Panic w /\ u_send_authenticate cfg P m r c = (with_buffer c b, Unwound (Code w))).
Proof.
  intros Hm. unfold u_send_authenticate, send_authenticate, u_build, self_bind. rewrite Hm. unfold u_read.
  destruct (build_authenticate cfg P c r) as [a|w]; cbn [obind].
  2:{ right. exists w, (cl_buffer c). split; [reflexivity|]. f_equal. now destruct c. }
  unfold u_clear, u_serialize. cbn [cl_buffer with_buffer].
  destruct (authenticate_ser cfg (finish_authenticate c a) []) as [[n b]|w]; cbn [obind].
  2:{ right. exists w, (m_torn m). split; reflexivity. }
  left. eexists. eexists. split; [reflexivity|]. rewrite u_set_auth. f_equal.
  change (with_buffer (with_buffer c []) b) with (with_buffer c b).
  unfold set_authenticated_state. now destruct (cl_state (with_buffer c b)).
Qed.

Lemma buffer_same c b : same_but_buffer (with_buffer c b) c.
Proof. destruct c. repeat split. Qed.
Lemma same_dress c c' : same_but_buffer c' c -> exists b, c' = with_buffer c b.
Proof.
  destruct c, c'. unfold same_but_buffer. cbn. intros H. decompose [and] H. subst. eexists. reflexivity.
Qed.
Lemma same_refl c : same_but_buffer c c.
Proof. destruct c; repeat split. Qed.
Lemma same_trans a b c : same_but_buffer a b -> same_but_buffer b c -> same_but_buffer a c.
Proof. destruct a, b, c. unfold same_but_buffer. cbn. intros H1 H2. decompose [and] H1. decompose [and] H2. subst. repeat split. Qed.
Lemma same_sym a b : same_but_buffer a b -> same_but_buffer b a.
Proof. destruct a, b. unfold same_but_buffer. cbn. intros H1. decompose [and] H1. subst. repeat split. Qed.

(** Client.v does not look at the buffer. *)
Lemma step_buffer cfg P c b o :
  snd (step cfg P (with_buffer c b) o) = snd (step cfg P c o)
  /\ same_but_buffer (fst (step cfg P (with_buffer c b) o)) (fst (step cfg P c o)).
Proof.
  destruct o as [|ch|r]; cbn [step].
  - replace (send_negociate (with_buffer c b)) with (send_negociate c) by now destruct c.
    destruct (send_negociate c) as [[x c']|w]; cbn [fst snd]; (split; [reflexivity|]); [apply same_refl|apply buffer_same].
  - cbn [fst snd]. split; [reflexivity|]. unfold recv_challenge.
    destruct c as [[]]; repeat split.
  - assert (E : build_authenticate cfg P (with_buffer c b) r = build_authenticate cfg P c r) by now destruct c.
    unfold send_authenticate. rewrite E. destruct (build_authenticate cfg P c r) as [a|w]; cbn [obind].
    2:{ split; [reflexivity|apply buffer_same]. }
    replace (finish_authenticate (with_buffer c b) a) with (finish_authenticate c a) by now destruct c.
    destruct (authenticate_ser _ _ _) as [[n x]|w]; cbn [obind fst snd]; (split; [reflexivity|]); [|apply buffer_same].
    apply same_refl.
Qed.
Lemma step_same cfg P c x o : same_but_buffer x c ->
  snd (step cfg P x o) = snd (step cfg P c o) /\ same_but_buffer (fst (step cfg P x o)) (fst (step cfg P c o)).
Proof. intros H. destruct (same_dress _ _ H) as (b & ->). apply step_buffer. Qed.

(** One call against Client.v. *)
Definition skipped (o : op) (m : mishaps) : bool := match o with OpAuthenticate _ => m_random m | _ => false end.
Lemma u_step_like cfg P c o m : plain c ->
  snd (u_step cfg P c (o, m)) = sight o m (snd (step cfg P c o))
  /\ same_but_buffer (fst (u_step cfg P c (o, m))) (if skipped o m then c else fst (step cfg P c o)).
Proof.
  intros Hp. unfold u_step. cbn [fst snd]. destruct o as [|ch|r]; cbn [step sight skipped].
  - destruct (u_neg c m Hp) as [(b & msg & E1 & E2)|(r & b & E1 & E2)]; rewrite E1, E2; cbn [fst snd].
    + destruct (m_stderr1 m || m_stderr2 m); cbn [fst snd]; (split; [reflexivity|apply same_refl]).
    + split; [reflexivity|apply buffer_same].
  - rewrite u_recv. cbn [fst snd]. split; [reflexivity|apply same_refl].
  - destruct (m_random m) eqn:Em.
    + unfold u_send_authenticate, u_build, self_bind. rewrite Em. cbn [fst snd]. split; [reflexivity|apply same_refl].
    + destruct (u_auth cfg P c m r Em) as [(b & c' & E1 & E2)|(w & b & E1 & E2)]; rewrite E1, E2; cbn [fst snd].
      * split; [reflexivity|apply same_refl].
      * split; [reflexivity|apply buffer_same].
Qed.
Lemma plain_same c x : same_but_buffer x c -> plain c -> plain x.
Proof. intros H. destruct (same_dress _ _ H) as (b & ->). now destruct c. Qed.
Lemma plain_run cfg P c h : plain c -> plain (run cfg P c h).
Proof. intros H. destruct (run_dress cfg P c h) as (s & b & ->). now apply plain_dress. Qed.
Lemma u_step_same cfg P c x o m : plain c -> same_but_buffer x c ->
  snd (u_step cfg P x (o, m)) = sight o m (snd (step cfg P c o))
  /\ same_but_buffer (fst (u_step cfg P x (o, m))) (if skipped o m then c else fst (step cfg P c o)).
Proof.
  intros Hp Hs. destruct (u_step_like cfg P x o m (plain_same _ _ Hs Hp)) as (A & B).
  destruct (step_same cfg P c x o Hs) as (A' & B'). rewrite A, A'. split; [reflexivity|].
  eapply same_trans; [exact B|]. destruct (skipped o m); assumption.
Qed.
Lemma counted_app h k : counted (h ++ k) = counted h ++ counted k.
Proof. induction h as [|[[|ch|r] m] h IH]; cbn [counted app]; [reflexivity| | |]; rewrite ?IH; try reflexivity. now destruct (m_random m). Qed.
Lemma counted_one o m : counted [(o, m)] = if skipped o m then [] else [o].
Proof. destruct o; reflexivity. Qed.
Lemma u_run_snoc cfg P c h o : u_run cfg P c (h ++ [o]) = fst (u_step cfg P (u_run cfg P c h) o).
Proof. unfold u_run. now rewrite fold_left_app. Qed.
Lemma u_run_like cfg P c h : plain c -> same_but_buffer (u_run cfg P c h) (run cfg P c (counted h)).
Proof.
  intros Hp. induction h as [|[o m] h IH] using rev_ind; [apply same_refl|].
  rewrite u_run_snoc, counted_app, counted_one.
  destruct (u_step_same cfg P _ _ o m (plain_run cfg P c _ Hp) IH) as (_ & B).
  eapply same_trans; [exact B|]. destruct (skipped o m); [rewrite app_nil_r; apply same_refl|].
  rewrite run_snoc. apply same_refl.
Qed.

(** After calls that panicked here and there the client is, but for its buffer,
    as after the calls that count, and answers the next call as Client.v says. *)
Lemma C105_like_before_lem : forall cfg P e level user dom pw target c h o m,
  made cfg P e level user dom pw target c ->
  same_but_buffer (u_run cfg P c h) (run cfg P c (counted h))
  /\ snd (u_step cfg P (u_run cfg P c h) (o, m)) = sight o m (snd (step cfg P (run cfg P c (counted h)) o)).
Proof.
  intros cfg P e level user dom pw target c h o m Hm. apply made_plain in Hm.
  pose proof (u_run_like cfg P c h Hm) as H. split; [exact H|].
  apply (u_step_same cfg P _ _ o m (plain_run cfg P c _ Hm) H).
Qed.
Lemma sights_same cfg P k : forall c x, plain c -> same_but_buffer x c -> sights cfg P x k = sights cfg P c k.
Proof.
  induction k as [|[o m] k IH]; intros c x Hp Hs; [reflexivity|]. cbn [sights].
  destruct (u_step_same cfg P c x o m Hp Hs) as (A & B). destruct (u_step_same cfg P c c o m Hp (same_refl c)) as (A' & B').
  rewrite A, A'. f_equal. apply IH.
  - eapply plain_same; [exact B'|]. destruct (skipped o m); [exact Hp|]. destruct (step_dress cfg P c o) as (s & b & ->). now apply plain_dress.
  - eapply same_trans; [exact B|]. apply same_sym. exact B'.
Qed.
Lemma plain_u_run cfg P c h : plain c -> plain (u_run cfg P c h).
Proof. intros H. eapply plain_same; [apply u_run_like; exact H|]. now apply plain_run. Qed.
(** A panic that is not about standard error leaves all but the buffer as it
    was, and all that is seen later is as if the call had not been made. *)
Lemma C105_panic_keeps_lem : forall cfg P e level user dom pw target c h o w,
  made cfg P e level user dom pw target c ->
  let c' := u_run cfg P c h in
  snd (u_step cfg P c' o) = SeenPanic w -> w <> NoStderr ->
  same_but_buffer (fst (u_step cfg P c' o)) c'
  /\ forall k, sights cfg P (fst (u_step cfg P c' o)) k = sights cfg P c' k.
Proof.
  intros cfg P e level user dom pw target c h [o m] w Hm c' E Hw. apply made_plain in Hm.
  pose proof (plain_u_run cfg P c h Hm) as Hp. fold c' in Hp.
  assert (H : same_but_buffer (fst (u_step cfg P c' (o, m))) c').
  { destruct (u_step_like cfg P c' o m Hp) as (A & B). eapply same_trans; [exact B|].
    rewrite E in A. destruct (skipped o m) eqn:Es; [apply same_refl|].
    destruct o as [|ch|r]; cbn [step sight skipped] in *.
    - destruct (send_negociate c') as [[b x]|r]; cbn [fst snd] in *; [|apply same_refl].
      destruct (m_stderr1 m || m_stderr2 m); congruence.
    - discriminate A.
    - rewrite Es in A. destruct (send_authenticate cfg P c' r) as [[b x]|r']; cbn [fst snd] in *; [discriminate A|apply same_refl]. }
  split; [exact H|]. intros k. now apply sights_same.
Qed.
(** Only a negotiation can fail for standard error, and then it has taken
    place: client and buffer are those of the call in which nothing went wrong,
    which would have returned the message. *)
Lemma C105_stderr_lem : forall cfg P e level user dom pw target c h o m,
  made cfg P e level user dom pw target c ->
  let c' := u_run cfg P c h in
  snd (u_step cfg P c' (o, m)) = SeenPanic NoStderr ->
  o = OpNegociate
  /\ fst (u_step cfg P c' (o, m)) = fst (u_step cfg P c' (o, calm))
  /\ snd (u_step cfg P c' (o, calm)) = SeenBytes (cl_buffer (fst (u_step cfg P c' (o, m)))).
Proof.
  intros cfg P e level user dom pw target c h o m Hm c' E. apply made_plain in Hm.
  pose proof (plain_u_run cfg P c h Hm) as Hp. fold c' in Hp.
  destruct o as [|ch|r].
  - split; [reflexivity|]. unfold u_step in *. cbn [fst snd] in *.
    destruct (u_neg c' m Hp) as [(b & msg & E1 & E2)|(r & b & E1 & E2)]; rewrite E2 in E |- *; [|discriminate E].
    destruct (u_neg c' calm Hp) as [(b' & msg' & E1' & E2')|(r & b' & E1' & E2')]; [|congruence].
    rewrite E2'. rewrite E1 in E1'. apply val_inj in E1'. injection E1' as <- Hs. cbn [calm m_stderr1 m_stderr2 orb fst snd].
    rewrite <- Hs. destruct (m_stderr1 m || m_stderr2 m); split; reflexivity.
  - unfold u_step in E. cbn [fst snd] in E. rewrite u_recv in E. discriminate E.
  - destruct (u_step_like cfg P c' (OpAuthenticate r) m Hp) as (A & _). rewrite E in A. cbn [sight] in A.
    destruct (m_random m); [discriminate A|]. destruct (snd (step cfg P c' (OpAuthenticate r))); discriminate A.
Qed.
(** What failed serialisations leave in the buffer is never seen. *)
Lemma C105_no_remains_lem : forall cfg P e level user dom pw target c h h',
  made cfg P e level user dom pw target c -> same_but_torn h h' ->
  sights cfg P c h = sights cfg P c h'.
Proof.
  intros cfg P e level user dom pw target c h h' Hm H. apply made_plain in Hm.
  assert (G : forall x, plain c -> same_but_buffer x c -> sights cfg P x h = sights cfg P c h').
  { clear Hm. revert c. induction H as [|[o m] [o' m'] h h' (E1 & E2 & E3 & E4) H IH]; intros c x Hp Hs; [reflexivity|].
    cbn [fst snd] in *. subst o'. cbn [sights].
    destruct (u_step_same cfg P c x o m Hp Hs) as (A & B). destruct (u_step_same cfg P c c o m' Hp (same_refl c)) as (A' & B').
    assert (K : skipped o m = skipped o m') by (destruct o; cbn; congruence).
    rewrite A, A'. f_equal.
    - destruct o as [|ch|r]; cbn [sight]; rewrite ?E2, ?E3, ?E4; reflexivity.
    - apply IH.
      + eapply plain_same; [exact B'|]. destruct (skipped o m'); [exact Hp|]. destruct (step_dress cfg P c o) as (s & b & ->). now apply plain_dress.
      + rewrite <- K in B'. eapply same_trans; [exact B|]. apply same_sym. exact B'. }
  apply G; [exact Hm|apply same_refl].
Qed.
(** False: a call that panics leaves the protocol state as it was. *)
Lemma C105_panic_keeps_refuted_lem : ~ (forall cfg P e level user dom pw target c h o w,
  made cfg P e level user dom pw target c ->
  snd (u_step cfg P (u_run cfg P c h) o) = SeenPanic w ->
  cl_state (fst (u_step cfg P (u_run cfg P c h) o)) = cl_state (u_run cfg P c h)).
Proof.
  intros H.
  specialize (H cfg_debug real_prims host_env 3 str_User str_Domain str_Password str_target (sample_client 3) []
    (OpNegociate, closed_stderr) NoStderr (sample_made 3)).
  assert (E : snd (u_step cfg_debug real_prims (sample_client 3) (OpNegociate, closed_stderr)) = SeenPanic NoStderr)
    by (vm_compute; reflexivity).
  specialize (H E). revert H. vm_compute. discriminate.
Qed.
Lemma numb_prims_ok : prims_ok numb_prims.
Proof.
  destruct real_prims_ok. constructor; cbn [p_md4 p_md5 p_hmac_md5 p_des p_rc4_stream p_upper numb_prims]; auto.
  intros k m. apply (zeros_buffer 16).
Qed.
Lemma long_made n : made cfg_debug numb_prims bare_env 3 str_User (long_domain n) str_Password [] (long_client n).
Proof.
  split; [exact numb_prims_ok|]. split; [closed_valid|]. split; [closed_valid|].
  split. { unfold long_domain. apply Forall_forall. intros x Hx. apply repeat_spec in Hx. subst x. vm_compute. auto. }
  split; [closed_valid|]. unfold long_client, bare_client.
  destruct (new_with_domain _ _ _ _ _ _ _ _) as [c|] eqn:E; [reflexivity|exfalso].
  revert E. unfold new_with_domain, compute_ntlm_hashes. vm_compute. discriminate.
Qed.
(** Standard error is closed during the negotiation and no random bytes are to
    be had for the first reply; and a negotiation that does not fit leaves
    bytes in the buffer. *)
Example C105_ex_lem :
  made cfg_debug real_prims host_env 3 str_User str_Domain str_Password str_target (sample_client 3)
  /\ sights cfg_debug real_prims (sample_client 3) bumpy_history
     = [SeenPanic NoStderr; SeenUnit; SeenPanic NoRandomBytes; SeenBytes (sample_reply 3 sealed_challenge)]
  /\ counted bumpy_history = [OpNegociate; OpRecvChallenge sealed_challenge; OpAuthenticate sample_entropy]
  /\ made cfg_debug numb_prims bare_env 3 str_User (long_domain 65536) str_Password [] (long_client 65536)
  /\ snd (u_step cfg_debug numb_prims (long_client 65536) (OpNegociate, leaves_bytes)) = SeenPanic (Code PExpect)
  /\ cl_buffer (fst (u_step cfg_debug numb_prims (long_client 65536) (OpNegociate, leaves_bytes))) = [1; 2; 3].
Proof.
  split; [apply sample_made|]. split; [vm_compute; reflexivity|]. split; [reflexivity|]. split; [apply long_made|].
  split; vm_compute; reflexivity.
Qed.
