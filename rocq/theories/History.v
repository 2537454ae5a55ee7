(** Histories of calls, reachable client states and the messages sent in them. *)
From Coq Require Import ZifyBool ZifyNat ZifyN.
From Verif Require Import Base Nom Unicode Wire Structures Prims Messages Crypto Client Spec SpecBuild SpecCrypto SpecClient Lib Encode Decode RoundTrip Parse Samples FactsEncode FactsDecode FactsBuild DesKey RealPrims FactsCrypto.

Ltac Zify.zify_post_hook ::= Z.div_mod_to_equations.

(** ** Histories *)
Lemma snoc_split {A} (h : list A) o a x b : h ++ [o] = a ++ x :: b ->
  (b = [] /\ h = a /\ o = x) \/ (exists b', b = b' ++ [o] /\ h = a ++ x :: b').
Proof.
  intros H. destruct (@exists_last _ (x :: b) ltac:(discriminate)) as (l & y & E).
  rewrite E, app_assoc in H. apply app_inj_tail in H. destruct H as [-> ->].
  destruct l as [|z l]; cbn in E; injection E as -> E.
  - left. rewrite app_nil_r. auto.
  - right. exists l. auto.
Qed.
Lemma accepts_snoc h o ch : accepts (h ++ [o]) ch <->
  match o with
  | OpNegociate => False
  | OpRecvChallenge c' => accepts h ch \/ (awaiting h /\ c' = ch)
  | OpAuthenticate _ => accepts h ch
  end.
Proof.
  assert (A : ~ is_negociate o -> accepts h ch -> accepts (h ++ [o]) ch).
  { intros Ho (h1 & h2 & h3 & -> & H2 & H3). exists h1, h2, (h3 ++ [o]). split.
    - rewrite <- !app_assoc. cbn. rewrite <- !app_assoc. reflexivity.
    - split; [exact H2|]. apply Forall_app. split; [exact H3|]. constructor; [exact Ho|constructor]. }
  split.
  - intros (h1 & h2 & h3 & E & H2 & H3).
    replace (h1 ++ OpNegociate :: h2 ++ OpRecvChallenge ch :: h3)
      with ((h1 ++ OpNegociate :: h2) ++ OpRecvChallenge ch :: h3) in E by now rewrite <- app_assoc.
    apply snoc_split in E. destruct E as [(-> & -> & ->)|(h3' & -> & ->)].
    + right. split; [|reflexivity]. exists h1, h2. auto.
    + apply Forall_app in H3. destruct H3 as [H3 Ho]. inversion Ho as [|? ? Ho' _]; subst.
      assert (B : accepts ((h1 ++ OpNegociate :: h2) ++ OpRecvChallenge ch :: h3') ch).
      { exists h1, h2, h3'. rewrite <- app_assoc. auto. }
      destruct o; [now destruct Ho'|left; exact B|exact B].
  - destruct o as [|c'|r]; [contradiction| |].
    + intros [H|((h1 & h2 & -> & H2) & ->)]; [apply A; [intros []|exact H]|].
      exists h1, h2, []. rewrite <- app_assoc. auto.
    + intros H. apply A; [intros []|exact H].
Qed.
Lemma awaiting_snoc h o : awaiting (h ++ [o]) <->
  match o with
  | OpNegociate => True
  | OpRecvChallenge _ => False
  | OpAuthenticate _ => awaiting h
  end.
Proof.
  split.
  - intros (h1 & h2 & E & H2). apply snoc_split in E. destruct E as [(-> & -> & ->)|(h2' & -> & ->)]; [exact I|].
    apply Forall_app in H2. destruct H2 as [H2 Ho]. inversion Ho as [|? ? [Ho1 Ho2] _]; subst.
    destruct o; [exact I|now apply Ho2|]. exists h1, h2'. auto.
  - destruct o as [|c'|r]; [intros _; exists h, []; auto|contradiction|].
    intros (h1 & h2 & -> & H2). exists h1, (h2 ++ [OpAuthenticate r]). rewrite <- app_assoc. split; [reflexivity|].
    apply Forall_app. split; [exact H2|]. repeat constructor; intros [].
Qed.
Lemma untouched_snoc h o : untouched (h ++ [o]) <-> untouched h /\ ~ is_negociate o.
Proof.
  unfold untouched. rewrite Forall_app. split; intros [H1 H2]; split; auto.
  inversion H2; assumption.
Qed.
Lemma not_accepts_nil ch : ~ accepts [] ch.
Proof. intros (h1 & h2 & h3 & E & _). now destruct h1. Qed.
Lemma not_awaiting_nil : ~ awaiting [].
Proof. intros (h1 & h2 & E & _). now destruct h1. Qed.
(** Every history is in exactly one of three phases. *)
Lemma phase h :
  (untouched h /\ ~ awaiting h /\ (forall ch, ~ accepts h ch))
  \/ (awaiting h /\ ~ untouched h /\ (forall ch, ~ accepts h ch))
  \/ (exists ch, accepts h ch /\ ~ awaiting h /\ ~ untouched h /\ forall ch', accepts h ch' -> ch' = ch).
Proof.
  induction h as [|o h IH] using rev_ind.
  - left. split; [constructor|]. split; [apply not_awaiting_nil|apply not_accepts_nil].
  - destruct o as [|c'|r].
    + right; left. rewrite awaiting_snoc, untouched_snoc. split; [exact I|]. split; [cbn; tauto|].
      intros ch. now rewrite accepts_snoc.
    + destruct IH as [(H1 & H2 & H3)|[(H1 & H2 & H3)|(ch & H1 & H2 & H3 & H4)]].
      * left. rewrite awaiting_snoc, untouched_snoc. split; [cbn; tauto|]. split; [tauto|].
        intros ch. rewrite accepts_snoc. specialize (H3 ch). tauto.
      * right; right. exists c'. rewrite awaiting_snoc, untouched_snoc, accepts_snoc. split; [tauto|]. split; [tauto|].
        split; [tauto|]. intros ch'. rewrite accepts_snoc. intros [H|[_ ->]]; [now apply H3 in H|reflexivity].
      * right; right. exists ch. rewrite awaiting_snoc, untouched_snoc, accepts_snoc. split; [tauto|]. split; [tauto|].
        split; [tauto|]. intros ch'. rewrite accepts_snoc. intros [H|[H _]]; [now apply H4|tauto].
    + destruct IH as [(H1 & H2 & H3)|[(H1 & H2 & H3)|(ch & H1 & H2 & H3 & H4)]].
      * left. rewrite awaiting_snoc, untouched_snoc. split; [cbn; tauto|]. split; [tauto|].
        intros ch. rewrite accepts_snoc. apply H3.
      * right; left. rewrite awaiting_snoc, untouched_snoc. split; [tauto|]. split; [tauto|].
        intros ch. rewrite accepts_snoc. apply H3.
      * right; right. exists ch. rewrite awaiting_snoc, untouched_snoc, accepts_snoc. split; [tauto|]. split; [tauto|].
        split; [tauto|]. intros ch'. rewrite accepts_snoc. apply H4.
Qed.

(** ** Clients *)
Lemma made_fields cfg P e level user dom pw target c : made cfg P e level user dom pw target c ->
  exists klm ws, lmowfv1 P pw = Val klm /\ get_workstation_name P e = Val ws
    /\ c = mkClient StNew user klm (ntowfv1 cfg P pw) (ntowfv2 cfg P user (ntowfv1 cfg P pw) dom)
             dom ws target [] None level.
Proof.
  intros (_ & _ & _ & _ & _ & H). unfold new_with_domain, compute_ntlm_hashes in H.
  destruct (lmowfv1 P pw) as [klm|]; [|discriminate H]. cbn [obind] in H.
  destruct (get_workstation_name P e) as [ws|]; [|discriminate H]. cbn [obind] in H.
  exists klm, ws. split; [reflexivity|]. split; [reflexivity|]. apply val_inj in H. now symmetry.
Qed.

(** A client in another protocol state. *)
Definition dress (c : client) (s : client_state) (b : bytes) : client := with_state (with_buffer c b) s.
Lemma dress_id c : c = dress c (cl_state c) (cl_buffer c).
Proof. now destruct c. Qed.
Lemma dress_dress c s b s' b' : dress (dress c s b) s' b' = dress c s' b'.
Proof. reflexivity. Qed.

(** ** NEGOTIATE *)
Definition neg_flags (level : N) (named : bool) : N :=
  fold_left (fun f i => f + 2 ^ i) (level_bits level ++ if named then [12] else []) 0.
Definition neg_message (level : N) (dom : rstring) : negotiate :=
  mkNegotiate (neg_flags level (negb (is_nil dom))) (if is_nil dom then None else Some dom) None None.
Ltac level_cases level H :=
  assert (level = 0 \/ level = 1 \/ level = 2 \/ level = 3 \/ level = 4 \/ level = 5) as H by lia;
  repeat (destruct H as [H|H]).
Lemma negociate_message_val c : cl_level c <= 5 -> cl_version c = None ->
  negociate_message c = Val (neg_message (cl_level c) (cl_domain c)).
Proof.
  destruct c as [st user klm knt k2 dom ws target buf ver level]. cbn [cl_level cl_version cl_domain]. intros H ->.
  unfold negociate_message, neg_message. cbn [cl_level cl_version cl_domain].
  level_cases level L; subst level; destruct dom; reflexivity.
Qed.
Lemma negociate_message_panic c : 5 < cl_level c -> exists w, negociate_message c = Panic w.
Proof.
  intros H. unfold negociate_message, negociate_flags.
  destruct (cl_level c) as [|[[[|[]|]|[|[]|]|]|[[|[]|]|[]|]|]] eqn:E; try lia; cbn [obind]; eauto.
Qed.
Lemma neg_flags_u32 level b : is_u32 (neg_flags level b).
Proof.
  unfold neg_flags, level_bits. destruct (level =? 0); [|destruct (level =? 1)]; destruct b; vm_compute; reflexivity.
Qed.
Lemma neg_message_valid level dom : is_string dom -> valid_negotiate (neg_message level dom).
Proof.
  intros H. unfold neg_message. split; [apply neg_flags_u32|]. split; [|split; exact I].
  cbn [n_domain]. now destruct dom.
Qed.
Lemma neg_message_fits level dom : fits (negotiate_fields (neg_message level dom)) <-> len (utf8 dom) <= 65535.
Proof.
  unfold fits, negotiate_fields, neg_message. cbn [n_domain n_workstation opt_map].
  split.
  - intros H. inversion H as [|? ? H1 H2]; subst. destruct dom; [cbn; lia|exact H1].
  - intros H. constructor; [destruct dom; [cbn; lia|exact H]|]. constructor; [cbn; lia|constructor].
Qed.
Lemma send_negociate_val c : cl_level c <= 5 -> cl_version c = None -> is_string (cl_domain c) ->
  let m := neg_message (cl_level c) (cl_domain c) in
  send_negociate c = if fitsb (negotiate_fields m)
    then Val (negotiate_bytes m, dress c (StNegotiateSent m) (negotiate_bytes m)) else Panic PExpect.
Proof.
  intros H1 H2 H3 m. unfold send_negociate. rewrite negociate_message_val by assumption. cbn [obind]. fold m.
  rewrite negotiate_ser_spec by now apply neg_message_valid.
  destruct (fitsb _); cbn [obind]; [|reflexivity]. cbn [app].
  unfold slice. replace (len (negotiate_bytes m) <? 0) with false by lia. rewrite N.ltb_irrefl. cbn [orb obind].
  rewrite N.sub_0_r, skipn_O, len_nat, firstn_all. reflexivity.
Qed.
Lemma send_negociate_dress c s b : send_negociate (dress c s b) = send_negociate c.
Proof. destruct c; reflexivity. Qed.

(** ** AUTHENTICATE *)
(** The message, given the negotiate message and the challenge. *)
Definition reply (cfg : config) (P : prims) (c : client) (n : negotiate) (ch : challenge) (r : entropy)
  : outcome authenticate :=
  let! a := build_authenticate cfg P (with_state c (StChallengeReceived n ch)) r in
  Val (finish_authenticate c a).
Definition ready (s : client_state) (n : negotiate) (ch : challenge) : Prop :=
  s = StChallengeReceived n ch \/ exists a, s = StAuthenticateSent n ch a.
Lemma send_authenticate_ready cfg P c n ch r : ready (cl_state c) n ch ->
  send_authenticate cfg P c r =
    (let! a := reply cfg P c n ch r in
     let! (_k, buf) := authenticate_ser cfg a [] in
     Val (buf, set_authenticated_state (with_buffer c buf) a)).
Proof.
  destruct c as [st user klm knt k2 dom ws target buf ver level]. cbn [cl_state]. intros [->|[a ->]]; unfold send_authenticate, reply.
  - change (with_state _ _) with (mkClient (StChallengeReceived n ch) user klm knt k2 dom ws target buf ver level).
    destruct (build_authenticate _ _ _ _); reflexivity.
  - change (with_state _ _) with (mkClient (StChallengeReceived n ch) user klm knt k2 dom ws target buf ver level).
    change (build_authenticate cfg P (mkClient (StAuthenticateSent n ch a) user klm knt k2 dom ws target buf ver level) r)
      with (build_authenticate cfg P (mkClient (StChallengeReceived n ch) user klm knt k2 dom ws target buf ver level) r).
    destruct (build_authenticate _ _ _ _); reflexivity.
Qed.
Lemma reply_dress cfg P c s b n ch r : reply cfg P (dress c s b) n ch r = reply cfg P c n ch r.
Proof. destruct c; reflexivity. Qed.
Lemma send_authenticate_not_ready cfg P c r : (forall n ch, ~ ready (cl_state c) n ch) ->
  exists w, send_authenticate cfg P c r = Panic w.
Proof.
  intros H. assert (G : exists w, get_challenge c = Panic w /\ get_negotiate c = Panic w).
  { unfold get_challenge, get_negotiate. destruct (cl_state c) as [|n|n ch|n ch a]; eauto.
    - destruct (H n ch). now left.
    - destruct (H n ch). right. eauto. }
  destruct G as (w & G1 & G2). unfold send_authenticate, build_authenticate, send_authenticate_ntlmv1, send_authenticate_ntlmv2.
  rewrite G1, G2. destruct (cl_level c) as [|[[[]|[]|]|[[]|[]|]|]]; cbn [obind]; eauto.
Qed.

(** ** Reachable states *)
Lemma step_dress cfg P c o : exists s b, fst (step cfg P c o) = dress c s b.
Proof.
  destruct o as [|ch|r]; cbn [step].
  - destruct (send_negociate c) as [[b c']|w] eqn:E; cbn [fst]; [|exists (cl_state c), (cl_buffer c); apply dress_id].
    unfold send_negociate in E. destruct (negociate_message c) as [m|]; [|discriminate E]. cbn [obind] in E.
    destruct (negotiate_ser m []) as [[k buf]|]; [|discriminate E]. cbn [obind] in E.
    destruct (slice buf 0 k); [|discriminate E]. cbn [obind] in E. apply val_inj in E. injection E as _ <-.
    eexists; eexists; reflexivity.
  - cbn [fst]. unfold recv_challenge. destruct (cl_state c) eqn:E;
      try (exists (cl_state c), (cl_buffer c); now rewrite <- dress_id).
    exists (StChallengeReceived n ch), (cl_buffer c). now destruct c.
  - destruct (send_authenticate cfg P c r) as [[b c']|w] eqn:E; cbn [fst]; [|exists (cl_state c), (cl_buffer c); apply dress_id].
    unfold send_authenticate in E. destruct (build_authenticate _ _ _ _) as [a|]; [|discriminate E]. cbn [obind] in E.
    destruct (authenticate_ser _ _ _) as [[k buf]|]; [|discriminate E]. cbn [obind] in E.
    apply val_inj in E. injection E as _ <-. unfold set_authenticated_state.
    destruct (cl_state (with_buffer c buf)) eqn:F.
    1,2,4: exists (cl_state c), buf; destruct c; reflexivity.
    eexists; eexists; reflexivity.
Qed.
Lemma run_snoc cfg P c h o : run cfg P c (h ++ [o]) = fst (step cfg P (run cfg P c h) o).
Proof. unfold run. now rewrite fold_left_app. Qed.
Lemma run_dress cfg P c h : exists s b, run cfg P c h = dress c s b.
Proof.
  induction h as [|o h IH] using rev_ind; [exists (cl_state c), (cl_buffer c); apply dress_id|].
  destruct IH as (s & b & IH). rewrite run_snoc, IH. destruct (step_dress cfg P (dress c s b) o) as (s' & b' & E).
  exists s', b'. now rewrite E, dress_dress.
Qed.

(** A client as [made] makes them. *)
Definition fresh (c : client) : Prop := cl_state c = StNew /\ cl_version c = None /\ is_string (cl_domain c).
Lemma made_fresh cfg P e level user dom pw target c : made cfg P e level user dom pw target c -> fresh c.
Proof.
  intros H. destruct (made_fields _ _ _ _ _ _ _ _ _ H) as (klm & ws & _ & _ & ->).
  destruct H as (_ & _ & _ & Hd & _). repeat split. exact Hd.
Qed.

Section Reach.
  Context (cfg : config) (P : prims) (c : client) (Hc : fresh c).
  Let m := neg_message (cl_level c) (cl_domain c).

  Lemma send_neg_run h : negotiable (cl_level c) (cl_domain c) ->
    send_negociate (run cfg P c h) = Val (negotiate_bytes m, dress c (StNegotiateSent m) (negotiate_bytes m)).
  Proof.
    intros [H1 H2]. destruct Hc as (_ & Hv & Hd). destruct (run_dress cfg P c h) as (s & b & ->).
    rewrite send_negociate_dress, send_negociate_val by assumption. fold m.
    assert (F : fitsb (negotiate_fields m) = true) by now apply fitsb_fits, neg_message_fits.
    now rewrite F.
  Qed.
  Lemma send_neg_run_panic h : ~ negotiable (cl_level c) (cl_domain c) ->
    exists w, send_negociate (run cfg P c h) = Panic w.
  Proof.
    intros H. destruct Hc as (_ & Hv & Hd). destruct (run_dress cfg P c h) as (s & b & ->).
    rewrite send_negociate_dress. destruct (N.le_gt_cases (cl_level c) 5) as [L|L].
    - rewrite send_negociate_val by assumption. fold m.
      destruct (fitsb (negotiate_fields m)) eqn:F; [|eauto].
      apply fitsb_fits, neg_message_fits in F. destruct H. split; assumption.
    - unfold send_negociate. destruct (negociate_message_panic c L) as [w ->]. cbn. eauto.
  Qed.

  Lemma run_states h : negotiable (cl_level c) (cl_domain c) ->
    (untouched h -> cl_state (run cfg P c h) = StNew)
    /\ (awaiting h -> cl_state (run cfg P c h) = StNegotiateSent m)
    /\ (forall ch, accepts h ch -> ready (cl_state (run cfg P c h)) m ch).
  Proof.
    intros N. induction h as [|o h (IH1 & IH2 & IH3)] using rev_ind.
    - destruct Hc as (Hs & _). split; [intros _; exact Hs|]. split; [intros H; now apply not_awaiting_nil in H|].
      intros ch H. now apply not_accepts_nil in H.
    - rewrite run_snoc. destruct o as [|c'|r]; cbn [step].
      + rewrite send_neg_run by exact N. cbn [fst]. split; [|split].
        * intros H. apply untouched_snoc in H. destruct H as [_ H]. now destruct H.
        * reflexivity.
        * intros ch H. now apply accepts_snoc in H.
      + cbn [fst]. split; [|split].
        * intros H. apply untouched_snoc in H. destruct H as [H _]. unfold recv_challenge. rewrite (IH1 H). exact (IH1 H).
        * intros H. now apply awaiting_snoc in H.
        * intros ch H. apply accepts_snoc in H. destruct H as [H|[H ->]].
          -- destruct (IH3 _ H) as [E|[a E]]; unfold recv_challenge; rewrite E; [left|right; exists a]; exact E.
          -- unfold recv_challenge. rewrite (IH2 H). left. reflexivity.
      + assert (NR : forall st, cl_state (run cfg P c h) = st -> (st = StNew \/ exists n, st = StNegotiateSent n) ->
                 exists w, send_authenticate cfg P (run cfg P c h) r = Panic w).
        { intros st E Hst. apply send_authenticate_not_ready. intros n ch [R|[a R]];
            destruct Hst as [->|[? ->]]; congruence. }
        split; [|split].
        * intros H. apply untouched_snoc in H. destruct H as [H _].
          destruct (NR _ (IH1 H) (or_introl eq_refl)) as [w ->]. now apply IH1.
        * intros H. apply awaiting_snoc in H.
          destruct (NR _ (IH2 H) (or_intror (ex_intro _ m eq_refl))) as [w ->]. now apply IH2.
        * intros ch H. apply accepts_snoc in H. pose proof (IH3 _ H) as R.
          rewrite (send_authenticate_ready _ _ _ _ _ _ R).
          destruct (reply _ _ _ _ _ _) as [a|]; cbn [obind]; [|exact R].
          destruct (authenticate_ser _ _ _) as [[k buf]|]; cbn [obind fst]; [|exact R].
          unfold set_authenticated_state.
          change (cl_state (with_buffer (run cfg P c h) buf)) with (cl_state (run cfg P c h)).
          destruct R as [E|[a' E]]; rewrite E.
          -- right. exists a. reflexivity.
          -- right. exists a'. exact E.
  Qed.
  Lemma run_states_not h : ~ negotiable (cl_level c) (cl_domain c) -> cl_state (run cfg P c h) = StNew.
  Proof.
    intros N. induction h as [|o h IH] using rev_ind; [apply Hc|]. rewrite run_snoc. destruct o as [|c'|r]; cbn [step].
    - destruct (send_neg_run_panic h N) as [w ->]. exact IH.
    - cbn [fst]. unfold recv_challenge. now rewrite IH.
    - destruct (send_authenticate_not_ready cfg P (run cfg P c h) r) as [w ->]; [|exact IH].
      intros n ch [R|[a R]]; congruence.
  Qed.

  (** What [send_authenticate] returns. *)
  Definition sent (ch : challenge) (r : entropy) : outcome bytes :=
    let! a := reply cfg P c m ch r in
    let! (_k, buf) := authenticate_ser cfg a [] in
    Val buf.
  Lemma answer_accepts h ch r : negotiable (cl_level c) (cl_domain c) -> accepts h ch ->
    answer cfg P c h (OpAuthenticate r) = match sent ch r with Val b => OutBytes b | Panic w => OutPanic w end.
  Proof.
    intros N H. destruct (run_states h N) as (_ & _ & H3). specialize (H3 _ H).
    unfold answer, sent. cbn [step]. rewrite (send_authenticate_ready _ _ _ _ _ _ H3).
    destruct (run_dress cfg P c h) as (s & b & ->). rewrite reply_dress.
    destruct (reply _ _ _ _ _ _) as [a|]; cbn [obind]; [|reflexivity].
    destruct (authenticate_ser _ _ _) as [[k buf]|]; reflexivity.
  Qed.
  Lemma answer_not_accepts h r : (forall ch, ~ accepts h ch) ->
    exists w, answer cfg P c h (OpAuthenticate r) = OutPanic w.
  Proof.
    intros H. assert (S : exists w, send_authenticate cfg P (run cfg P c h) r = Panic w).
    { apply send_authenticate_not_ready. intros n ch R.
      assert (D : negotiable (cl_level c) (cl_domain c) \/ ~ negotiable (cl_level c) (cl_domain c)).
      { unfold negotiable. lia. }
      destruct D as [N|N].
      - destruct (run_states h N) as (H1 & H2 & _).
        destruct (phase h) as [(U & _)|[(A & _)|(ch' & A & _)]].
        + rewrite (H1 U) in R. destruct R as [R|[a R]]; discriminate R.
        + rewrite (H2 A) in R. destruct R as [R|[a R]]; discriminate R.
        + now apply H in A.
      - rewrite run_states_not in R by exact N. destruct R as [R|[a R]]; discriminate R. }
    destruct S as [w E]. exists w. unfold answer. cbn [step]. now rewrite E.
  Qed.
  Lemma answer_not_negotiable h r : ~ negotiable (cl_level c) (cl_domain c) ->
    exists w, answer cfg P c h (OpAuthenticate r) = OutPanic w.
  Proof.
    intros N. destruct (send_authenticate_not_ready cfg P (run cfg P c h) r) as [w E].
    - intros n ch R. rewrite run_states_not in R by exact N. destruct R as [R|[a R]]; discriminate R.
    - exists w. unfold answer. cbn [step]. now rewrite E.
  Qed.
  (** The session key kept after a complete handshake. *)
  Lemma run_handshake h ch r : negotiable (cl_level c) (cl_domain c) ->
    cl_state (run cfg P c (h ++ [OpNegociate; OpRecvChallenge ch; OpAuthenticate r])) =
      match reply cfg P c m ch r with
      | Panic _ => StChallengeReceived m ch
      | Val a => match authenticate_ser cfg a [] with
                 | Panic _ => StChallengeReceived m ch
                 | Val _ => StAuthenticateSent m ch a
                 end
      end.
  Proof.
    intros N. change [OpNegociate; OpRecvChallenge ch; OpAuthenticate r]
      with ([OpNegociate] ++ [OpRecvChallenge ch] ++ [OpAuthenticate r]).
    rewrite !app_assoc. rewrite run_snoc. set (c2 := run cfg P c ((h ++ [OpNegociate]) ++ [OpRecvChallenge ch])).
    assert (S : cl_state c2 = StChallengeReceived m ch).
    { unfold c2. rewrite run_snoc. cbn [step fst]. unfold recv_challenge.
      destruct (run_states (h ++ [OpNegociate]) N) as (_ & H2 & _). rewrite H2; [reflexivity|].
      now apply awaiting_snoc. }
    cbn [step]. rewrite (send_authenticate_ready _ _ _ m ch) by now left.
    assert (E : reply cfg P c2 m ch r = reply cfg P c m ch r).
    { unfold c2. destruct (run_dress cfg P c ((h ++ [OpNegociate]) ++ [OpRecvChallenge ch])) as (s & b & ->). apply reply_dress. }
    rewrite E. clear E. destruct (reply cfg P c m ch r) as [a|]; cbn [obind]; [|exact S].
    destruct (authenticate_ser _ _ _) as [[k buf]|]; cbn [obind fst]; [|exact S].
    unfold set_authenticated_state. change (cl_state (with_buffer c2 buf)) with (cl_state c2). rewrite S. reflexivity.
  Qed.
End Reach.
