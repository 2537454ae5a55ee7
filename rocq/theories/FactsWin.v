(** Facts about the Windows client. *)
From Coq Require Import ZifyBool ZifyNat ZifyN.
From Verif Require Import Base Unicode Win Spec SpecWin Samples SamplesWin.
Ltac Zify.zify_post_hook ::= Z.div_mod_to_equations.

Lemma complete_dec st : (st =? SEC_I_COMPLETE_NEEDED) || (st =? SEC_I_COMPLETE_AND_CONTINUE) = true <-> wants_completion st.
Proof. unfold wants_completion. rewrite orb_true_iff, !N.eqb_eq. reflexivity. Qed.
Lemma more_dec st : (st =? SEC_I_CONTINUE_NEEDED) || (st =? SEC_I_COMPLETE_AND_CONTINUE) = true <-> wants_more st.
Proof. unfold wants_more. rewrite orb_true_iff, !N.eqb_eq. reflexivity. Qed.

(** ** C51 *)

Lemma step_proper cfg pkg cred log w input e :
  proper pkg cred (w_target w) log -> w_credentials w = cred -> w_context w = last_context pkg log ->
  forall log' w' r, win_step cfg pkg log w input e = (log', w', r) ->
  proper pkg cred (w_target w') log' /\ w_credentials w' = cred /\ w_context w' = last_context pkg log' /\ w_target w' = w_target w.
Proof.
  intros Hp Hc Hx log' w' r. unfold win_step, initialize_security_context. cbn zeta.
  set (lg := InitContext _ _ _ _ _ :: log).
  assert (Pl : proper pkg cred (w_target w) lg) by (cbn [lg proper]; auto).
  destruct ((status (pkg lg) =? SEC_I_COMPLETE_NEEDED) || (status (pkg lg) =? SEC_I_COMPLETE_AND_CONTINUE)) eqn:C.
  - apply complete_dec in C.
    set (lg2 := CompleteToken _ _ :: lg).
    assert (P2 : proper pkg cred (w_target w) lg2).
    { change (proper pkg cred (w_target w) lg /\ Some (out_handle (pkg lg)) = last_context pkg lg /\ wants_completion (status (pkg lg)) /\ out_token (pkg lg) = out_token (pkg lg)).
      split; [exact Pl|split; [reflexivity|split; [exact C|reflexivity]]]. }
    destruct (failure _); [|destruct (debug cfg && _)]; intros H;
      pose proof (f_equal (fun x => fst (fst x)) H) as H1; pose proof (f_equal (fun x => snd (fst x)) H) as H2; cbn [fst snd] in H1, H2;
      subst log' w'; cbn [w_target w_credentials w_context]; repeat split; auto.
  - destruct (debug cfg && _); intros H;
      pose proof (f_equal (fun x => fst (fst x)) H) as H1; pose proof (f_equal (fun x => snd (fst x)) H) as H2; cbn [fst snd] in H1, H2;
      subst log' w'; cbn [w_target w_credentials w_context]; repeat split; auto.
Qed.
(** Whatever the package answers and whatever the user calls, the conversation is conducted properly. *)
Lemma C51_context_passed_on_lem : forall cfg pkg target w os log w',
  win_made pkg target w -> performs cfg pkg [AcquireCredentials NEGOTIATE_PACKAGE] w os = (log, w') ->
  proper pkg (w_credentials w) (utf8 target) log.
Proof.
  intros cfg pkg target w os log w' Hm. unfold win_made, win_new in Hm.
  destruct (existsb _ _); [discriminate|]. cbn zeta in Hm. destruct (failure _) eqn:F; [discriminate|].
  apply (f_equal snd) in Hm. cbn [snd] in Hm. apply (f_equal (fun x => match x with inl a => a | inr _ => w end)) in Hm.
  assert (Ht : utf8 target = w_target w) by (rewrite <- Hm; reflexivity). rewrite Ht.
  assert (S : forall os log0 w0, proper pkg (w_credentials w) (w_target w0) log0 -> w_credentials w0 = w_credentials w ->
    w_context w0 = last_context pkg log0 -> w_target w0 = w_target w ->
    performs cfg pkg log0 w0 os = (log, w') -> proper pkg (w_credentials w) (w_target w) log).
  { clear Hm. intros os0. induction os0 as [|o os0 IH]; intros log0 w0 P0 C0 X0 T0 H; cbn [performs] in H.
    - apply (f_equal fst) in H. cbn [fst] in H. rewrite <- H, <- T0. exact P0.
    - destruct (perform cfg pkg log0 w0 o) as [[log1 w1] r1] eqn:E.
      assert (K : exists input e, win_step cfg pkg log0 w0 input e = (log1, w1, r1)).
      { destruct o; [exists None, false|exists (Some message), true]; exact E. }
      destruct K as [input [e K]].
      destruct (step_proper cfg pkg _ log0 w0 input e P0 C0 X0 _ _ _ K) as [A [B [C D]]].
      apply (IH log1 w1); try assumption. rewrite D. exact T0. }
  intros H. refine (S os _ w _ _ _ _ H).
  - subst w. cbn [proper w_credentials]. auto.
  - reflexivity.
  - subst w. reflexivity.
  - reflexivity.
Qed.

(** The errors that are reported: those of the completion of a token, nothing else. *)
Lemma C51_errors_reported_lem : forall cfg pkg log w o log' w' r,
  perform cfg pkg log w o = (log', w', r) ->
  let first := opening w o :: log in
  (forall st, r = Val (inr (StatusError st)) <->
    wants_completion (status (pkg first)) /\ log' = CompleteToken (out_handle (pkg first)) (out_token (pkg first)) :: first
    /\ status (pkg log') = st /\ 2147483648 <= st)
  /\ r <> Val (inr NulError).
Proof.
  intros cfg pkg log w o log' w' r H.
  assert (K : exists input e, win_step cfg pkg log w input e = (log', w', r)
     /\ InitContext (w_credentials w) (w_context w) (w_target w) (option_map seen input) MAX_MESSAGE_SIZE = opening w o).
  { destruct o; [exists None, false|exists (Some message), true]; split; (exact H || reflexivity). }
  clear H. destruct K as [input [e [H O]]]. unfold win_step, initialize_security_context in H. cbn zeta in H.
  cbn zeta. rewrite O in H.
  set (lg := opening w o :: log) in *. apply and_comm. split.
  { destruct (_ || _); [destruct (failure _)|]; try destruct (debug cfg && _); pose proof (f_equal snd H) as H3; cbn [snd] in H3; subst r; discriminate. }
  intros st.
  destruct ((status (pkg lg) =? SEC_I_COMPLETE_NEEDED) || (status (pkg lg) =? SEC_I_COMPLETE_AND_CONTINUE)) eqn:C.
  - apply complete_dec in C. set (lg2 := CompleteToken _ _ :: lg) in *.
    unfold failure in H. destruct (N.leb_spec 2147483648 (status (pkg lg2))) as [F|F]; [|destruct (debug cfg && _)];
      pose proof (f_equal (fun x => fst (fst x)) H) as H1; pose proof (f_equal snd H) as H3; cbn [fst snd] in H1, H3; subst log' r.
    + split; [intros Q; injection Q as <-; auto|intros [_ [_ [<- _]]]; reflexivity].
    + split; [discriminate|intros [_ [_ [<- Q]]]; lia].
    + split; [discriminate|intros [_ [_ [<- Q]]]; lia].
  - destruct (debug cfg && _); pose proof (f_equal snd H) as H3; cbn [snd] in H3; subst r;
      (split; [discriminate|intros [Q _]; apply complete_dec in Q; rewrite Q in C; discriminate]).
Qed.

(** Without completion: the bytes returned are those the package wrote, and a
    debug build panics when the package has no further round to offer after
    [negotiate] or wants one after [challenge]. *)
Lemma C51_returned_lem : forall cfg pkg log w o log' w' r,
  perform cfg pkg log w o = (log', w', r) ->
  let first := opening w o :: log in
  ~ wants_completion (status (pkg first)) ->
  log' = first /\ w_output w' = out_token (pkg first) /\ w_context w' = Some (out_handle (pkg first))
  /\ r = if debug cfg && match o with
                         | WNegotiate => negb ((status (pkg first) =? 590610) || (status (pkg first) =? 590612))
                         | WChallenge _ => (status (pkg first) =? 590610) || (status (pkg first) =? 590612)
                         end
         then Panic PDebugAssert else Val (inl (out_token (pkg first))).
Proof.
  intros cfg pkg log w o log' w' r H first Hn.
  assert (C : (status (pkg first) =? SEC_I_COMPLETE_NEEDED) || (status (pkg first) =? SEC_I_COMPLETE_AND_CONTINUE) = false).
  { destruct (_ || _) eqn:C; [|reflexivity]. elim Hn. apply complete_dec. exact C. }
  assert (Hf : InitContext (w_credentials w) (w_context w) (w_target w)
     (option_map seen match o with WNegotiate => None | WChallenge m => Some m end) MAX_MESSAGE_SIZE :: log = first) by (destruct o; reflexivity).
  destruct o; cbn [perform] in H; unfold win_negotiate, win_challenge, win_step, initialize_security_context in H; cbn zeta in H;
      rewrite Hf, C in H;
      change 590610 with SEC_I_CONTINUE_NEEDED; change 590612 with SEC_I_COMPLETE_AND_CONTINUE;
      destruct (debug cfg); cbn [andb] in H |- *;
      destruct ((status (pkg first) =? SEC_I_CONTINUE_NEEDED) || (status (pkg first) =? SEC_I_COMPLETE_AND_CONTINUE)); cbn [negb Bool.eqb] in H |- *;
      pose proof (f_equal (fun x => fst (fst x)) H) as H1; pose proof (f_equal (fun x => snd (fst x)) H) as H2; pose proof (f_equal snd H) as H3;
      cbn [fst snd w_output] in H1, H2, H3; subst w';
      (split; [symmetry; exact H1|split; [reflexivity|split; [reflexivity|symmetry; exact H3]]]).
Qed.
(** With completion: the error of the completion, or the token as the package left it. *)
Lemma C51_completed_lem : forall cfg pkg log w o log' w' out,
  perform cfg pkg log w o = (log', w', Val (inl out)) ->
  let first := opening w o :: log in wants_completion (status (pkg first)) ->
    log' = CompleteToken (out_handle (pkg first)) (out_token (pkg first)) :: first
    /\ status (pkg log') < 2147483648
    /\ (len (out_token (pkg log')) = len (out_token (pkg first)) -> out = out_token (pkg log')).
Proof.
  intros cfg pkg log w o log' w' out H first Hn. apply complete_dec in Hn.
  assert (Hf : InitContext (w_credentials w) (w_context w) (w_target w)
     (match o with WNegotiate => None | WChallenge m => Some (seen m) end) MAX_MESSAGE_SIZE :: log = first) by (destruct o; reflexivity).
  assert (K : exists e, win_step cfg pkg log w (match o with WNegotiate => None | WChallenge m => Some m end) e = (log', w', Val (inl out))).
  { destruct o; [exists false|exists true]; exact H. }
  destruct K as [e K]. unfold win_step, initialize_security_context in K. cbn zeta in K.
  replace (option_map seen match o with WNegotiate => None | WChallenge m => Some m end)
    with (match o with WNegotiate => None | WChallenge m => Some (seen m) end) in K by (destruct o; reflexivity).
  rewrite Hf, Hn in K.
  set (lg2 := CompleteToken _ _ :: first) in *. unfold failure in K. destruct (N.leb_spec 2147483648 (status (pkg lg2))) as [F|F];
    [|destruct (debug cfg && _)];
    pose proof (f_equal (fun x => fst (fst x)) K) as H1; pose proof (f_equal snd K) as H3; cbn [fst snd w_output] in H1, H3; try discriminate.
  subst log'. split; [reflexivity|]. split; [exact F|]. intros L. unfold len in L. apply Nat2N.inj in L.
  assert (E : rewritten (out_token (pkg first)) (out_token (pkg lg2)) = out).
  { apply (f_equal (fun x => match x with Val (inl a) => a | _ => out end)) in H3. exact H3. }
  rewrite <- E. unfold rewritten. rewrite <- L, skipn_all2 by lia. rewrite app_nil_r. apply firstn_all.
Qed.

(** A failure status of the package itself is not reported. *)
Lemma C51_failure_reported_refuted_lem : ~ (forall cfg pkg target w message log' w' r,
  win_made pkg target w ->
  win_challenge cfg pkg [AcquireCredentials NEGOTIATE_PACKAGE] w message = (log', w', r) ->
  (exists c rest, log' = c :: rest /\ failure (status (pkg log')) = true) ->
  exists e, r = Val (inr e)).
Proof.
  intros H. specialize (H cfg_debug denying_package str_target_win denied_client [1; 2; 3]).
  specialize (H _ _ _ ltac:(vm_compute; reflexivity) ltac:(vm_compute; reflexivity)).
  destruct H as [e H]; [|discriminate]. eexists. eexists. split; [reflexivity|vm_compute; reflexivity].
Qed.

Example C51_context_passed_on_ex_lem :
  win_made rounds_package str_target_win rounds_client
  /\ performs cfg_debug rounds_package [AcquireCredentials NEGOTIATE_PACKAGE] rounds_client [WNegotiate; WChallenge [8; 8]]
     = ([InitContext 7 (Some 9) [116; 101; 115; 116] (Some [8; 8]) 12000; CompleteToken 9 [1; 2; 3];
         InitContext 7 None [116; 101; 115; 116] None 12000; AcquireCredentials [78; 101; 103; 111; 116; 105; 97; 116; 101]],
        mkWin 7 (Some 10) [116; 101; 115; 116] [6]).
Proof. vm_compute. auto. Qed.
Example C51_completed_ex_lem : exists w',
  perform cfg_debug rounds_package [AcquireCredentials NEGOTIATE_PACKAGE] rounds_client WNegotiate
  = ([CompleteToken 9 [1; 2; 3]; InitContext 7 None [116; 101; 115; 116] None 12000; AcquireCredentials NEGOTIATE_PACKAGE],
     w', Val (inl [4; 5; 3])).
Proof. eexists. vm_compute. reflexivity. Qed.

(** ** C63 *)
Lemma utf8_zero s : is_string s -> (existsb (N.eqb 0) (utf8 s) = true <-> In 0 s).
Proof.
  intros H. rewrite existsb_exists. split.
  - intros (x & X & E). apply N.eqb_eq in E. subst x. unfold utf8 in X. apply in_flat_map in X. destruct X as (c & C & X).
    assert (c = 0); [|now subst]. unfold is_string in H. rewrite Forall_forall in H. specialize (H c C).
    unfold is_scalar, is_scalarb in H. unfold utf8_char in X.
    repeat match goal with X : context [if ?b then _ else _] |- _ => destruct b eqn:? end; cbn [In] in X; clear H; lia.
  - intros I. exists 0. split; [|reflexivity]. unfold utf8. apply in_flat_map. exists 0. split; [exact I|]. left. reflexivity.
Qed.
Lemma C63_new_lem : forall pkg log target, is_string target ->
  let r := pkg (AcquireCredentials NEGOTIATE_PACKAGE :: log) in
  (In 0 target -> win_new pkg log target = (log, inr NulError))
  /\ (~ In 0 target -> 2147483648 <= status r ->
      win_new pkg log target = (AcquireCredentials NEGOTIATE_PACKAGE :: log, inr (StatusError (status r))))
  /\ (~ In 0 target -> status r < 2147483648 ->
      win_new pkg log target = (AcquireCredentials NEGOTIATE_PACKAGE :: log, inl (mkWin (out_handle r) None (utf8 target) []))).
Proof.
  intros pkg log target H r. pose proof (utf8_zero target H) as Z. unfold win_new, failure.
  destruct (existsb (N.eqb 0) (utf8 target)).
  - destruct Z as [Z _]. specialize (Z eq_refl). tauto.
  - split; [intros I; apply Z in I; discriminate I|].
    change (pkg (AcquireCredentials SECURITY_PACKAGE :: log)) with r.
    split; intros _ S.
    + replace (2147483648 <=? status r) with true by lia. reflexivity.
    + replace (2147483648 <=? status r) with false by lia. reflexivity.
Qed.
(** The target the package is given is the one given to [new], cut nowhere:
    the terminating 0 the package looks for is not part of it. *)
Lemma C63_target_whole_lem : forall pkg log target log' w, is_string target ->
  win_new pkg log target = (log', inl w) -> w_target w = utf8 target /\ ~ In 0 (w_target w) /\ w_context w = None.
Proof.
  intros pkg log target log' w H E. pose proof (utf8_zero target H) as Z. unfold win_new in E.
  destruct (existsb (N.eqb 0) (utf8 target)) eqn:X; [discriminate E|]. destruct (failure _); [discriminate E|].
  apply (f_equal snd) in E. cbn [snd] in E. injection E as <-. cbn [w_target w_context]. split; [reflexivity|]. split; [|reflexivity].
  intros I. assert (Q : existsb (N.eqb 0) (utf8 target) = true) by (apply existsb_exists; exists 0; split; [exact I|reflexivity]). congruence.
Qed.
Example C63_ex_lem : is_string str_target_win /\ ~ In 0 str_target_win
  /\ win_new denying_package [] str_target_win
     = ([AcquireCredentials [78; 101; 103; 111; 116; 105; 97; 116; 101]], inl (mkWin 7 None [116; 101; 115; 116] []))
  /\ win_new denying_package [] [116; 0] = ([], inr NulError).
Proof.
  split; [closed_valid|]. split; [cbn; lia|]. split; vm_compute; reflexivity.
Qed.
