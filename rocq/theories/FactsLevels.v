(** Facts about a client whose [V::version()] changes. *)
From Coq Require Import ZifyBool ZifyNat ZifyN.
From Verif Require Import Base Nom Unicode Wire Structures Prims Messages Crypto Client Levels Spec SpecCrypto SpecClient SpecBuild SpecHandshake SpecLevels Lib Encode Decode RoundTrip Parse Samples FactsEncode FactsDecode FactsBuild DesKey RealPrims FactsCrypto SamplesClient SamplesLevels History Reply FactsClient FactsReply FactsTrace FactsHandshake FactsVersioned.

Ltac Zify.zify_post_hook ::= Z.div_mod_to_equations.

(** ** One call is a call of a client of one level *)
Lemma at_level_dress c s b l : at_level (dress c s b) l = dress (at_level c l) s b.
Proof. reflexivity. Qed.
Lemma at_level_id c : at_level c (cl_level c) = c.
Proof. now destruct c. Qed.
Lemma at_level_twice c l l' : at_level (at_level c l) l' = at_level c l'.
Proof. reflexivity. Qed.
Definition act (V : versions) (k : nat) (o : op) : N :=
  match o with OpAuthenticate _ => acts (V k) (V (S k)) | _ => V k end.
Lemma v1_level P c l l' r : (l =? 0) = (l' =? 0) ->
  send_authenticate_ntlmv1 P (at_level c l) r = send_authenticate_ntlmv1 P (at_level c l') r.
Proof. intros H. unfold send_authenticate_ntlmv1, at_level, get_challenge. cbn [cl_level cl_state cl_nt_hash cl_lm_hash cl_domain cl_username]. now rewrite H. Qed.
Lemma v2_level cfg P c l r : send_authenticate_ntlmv2 cfg P (at_level c l) r = send_authenticate_ntlmv2 cfg P c r.
Proof. now destruct c. Qed.
Lemma build_v1 cfg P c r : cl_level c <= 2 -> build_authenticate cfg P c r = send_authenticate_ntlmv1 P c r.
Proof.
  intros H. unfold build_authenticate. assert (L : cl_level c = 0 \/ cl_level c = 1 \/ cl_level c = 2) by lia.
  destruct L as [->|[->| ->]]; reflexivity.
Qed.
Lemma build_v2 cfg P c r : 3 <= cl_level c <= 5 -> build_authenticate cfg P c r = send_authenticate_ntlmv2 cfg P c r.
Proof.
  intros H. unfold build_authenticate. assert (L : cl_level c = 3 \/ cl_level c = 4 \/ cl_level c = 5) by lia.
  destruct L as [->|[->| ->]]; reflexivity.
Qed.
Lemma build_none cfg P c r : 5 < cl_level c -> build_authenticate cfg P c r = Panic PUnreachable.
Proof.
  intros H. unfold build_authenticate. destruct (cl_level c) as [|[[[]|[]|]|[[]|[]|]|]]; reflexivity || lia.
Qed.
Lemma v_build_level cfg P V c k r :
  fst (v_build_authenticate cfg P V c k r) = build_authenticate cfg P (at_level c (acts (V k) (V (S k)))) r.
Proof.
  assert (D : V k <= 2 \/ 3 <= V k <= 5 \/ 5 < V k) by lia. destruct D as [D|[D|D]].
  - assert (E : v_build_authenticate cfg P V c k r = v_authenticate_ntlmv1 P V c (S k) r).
    { unfold v_build_authenticate. assert (L : V k = 0 \/ V k = 1 \/ V k = 2) by lia. destruct L as [->|[->| ->]]; reflexivity. }
    rewrite E. unfold acts. replace (V k <=? 2) with true by lia.
    rewrite build_v1 by (cbn [at_level cl_level]; destruct (V (S k) =? 0); lia).
    unfold v_authenticate_ntlmv1. destruct (get_challenge c) as [ch|w] eqn:G; cbn [fst].
    + apply v1_level. destruct (V (S k) =? 0); reflexivity.
    + unfold send_authenticate_ntlmv1. change (get_challenge (at_level c _)) with (get_challenge c). now rewrite G.
  - unfold acts. replace (V k <=? 2) with false by lia. rewrite build_v2 by exact D. rewrite v2_level.
    unfold v_build_authenticate. assert (L : V k = 3 \/ V k = 4 \/ V k = 5) by lia. destruct L as [->|[->| ->]]; reflexivity.
  - unfold acts. replace (V k <=? 2) with false by lia. rewrite build_none by exact D.
    unfold v_build_authenticate. destruct (V k) as [|[[[]|[]|]|[[]|[]|]|]]; reflexivity || lia.
Qed.
Lemma v_authenticate_level cfg P V c k r :
  fst (v_send_authenticate cfg P V c k r) =
  (let! (b, c') := send_authenticate cfg P (at_level c (acts (V k) (V (S k)))) r in Val (b, at_level c' (cl_level c))).
Proof.
  unfold v_send_authenticate, send_authenticate. rewrite <- v_build_level.
  destruct (v_build_authenticate cfg P V c k r) as [built k']. cbn [fst].
  change (finish_authenticate (at_level c (acts (V k) (V (S k))))) with (finish_authenticate c).
  destruct built as [a|w]; cbn [obind]; [|reflexivity].
  destruct (authenticate_ser cfg (finish_authenticate c a) []) as [[n buf]|w]; cbn [obind]; [|reflexivity].
  do 2 f_equal. unfold set_authenticated_state. change (cl_state (with_buffer (at_level c _) buf)) with (cl_state c).
  change (cl_state (with_buffer c buf)) with (cl_state c). destruct c as [[] ? ? ? ? ? ? ? ? ? ?]; reflexivity.
Qed.
Lemma v_step_level cfg P V c k o :
  fst (fst (v_step cfg P V (c, k) o)) = at_level (fst (step cfg P (at_level c (act V k o)) o)) (cl_level c)
  /\ snd (v_step cfg P V (c, k) o) = snd (step cfg P (at_level c (act V k o)) o).
Proof.
  destruct o as [|ch|r]; cbn [v_step step act].
  - unfold v_send_negociate. destruct (send_negociate (at_level c (V k))) as [[b c']|w]; cbn [obind fst snd]; [auto|].
    rewrite at_level_twice, at_level_id. auto.
  - cbn [fst snd]. unfold recv_challenge. destruct c as [[] ? ? ? ? ? ? ? ? ? ?]; auto.
  - pose proof (v_authenticate_level cfg P V c k r) as E. destruct (v_send_authenticate cfg P V c k r) as [x k'].
    cbn [fst] in E. subst x. destruct (send_authenticate cfg P _ r) as [[b c']|w]; cbn [obind fst snd]; [auto|].
    rewrite at_level_twice, at_level_id. auto.
Qed.
Lemma v_run_snoc cfg P V c h o : v_run cfg P V c (h ++ [o]) = fst (v_step cfg P V (v_run cfg P V c h) o).
Proof. unfold v_run. now rewrite fold_left_app. Qed.
Lemma v_run_pair cfg P V c h : v_run cfg P V c h = (v_client cfg P V c h, asked cfg P V c h).
Proof. unfold v_client, asked. now destruct (v_run cfg P V c h). Qed.
Lemma v_answer_level cfg P V c h o :
  v_answer cfg P V c h o
  = snd (step cfg P (at_level (v_client cfg P V c h) (act V (asked cfg P V c h) o)) o).
Proof. unfold v_answer. rewrite v_run_pair. apply v_step_level. Qed.
Lemma v_client_level cfg P V c h : cl_level (v_client cfg P V c h) = cl_level c.
Proof.
  induction h as [|o h IH] using rev_ind; [reflexivity|]. unfold v_client. rewrite v_run_snoc, v_run_pair.
  rewrite (proj1 (v_step_level _ _ _ _ _ _)). exact IH.
Qed.
Lemma v_client_snoc cfg P V c h o : v_client cfg P V c (h ++ [o])
  = at_level (fst (step cfg P (at_level (v_client cfg P V c h) (act V (asked cfg P V c h) o)) o)) (cl_level c).
Proof.
  unfold v_client at 1. rewrite v_run_snoc, v_run_pair, (proj1 (v_step_level _ _ _ _ _ _)). now rewrite v_client_level.
Qed.
Lemma v_client_dress cfg P V c h : exists s b, v_client cfg P V c h = dress c s b.
Proof.
  induction h as [|o h IH] using rev_ind; [exists (cl_state c), (cl_buffer c); apply dress_id|].
  destruct IH as (s & b & IH). rewrite v_client_snoc, IH, at_level_dress.
  destruct (step_dress cfg P (dress (at_level c (act V (asked cfg P V c h) o)) s b) o) as (s' & b' & E).
  exists s', b'. rewrite E, dress_dress, at_level_dress, at_level_twice, at_level_id. reflexivity.
Qed.
Lemma made_at_level cfg P e level user dom pw target c l : made cfg P e level user dom pw target c ->
  made cfg P e l user dom pw target (at_level c l).
Proof.
  intros M. destruct (made_fields _ _ _ _ _ _ _ _ _ M) as (klm & ws & Hk & Hw & Ec).
  destruct M as (H1 & H2 & H3 & H4 & H5 & _). repeat (split; [assumption|]).
  unfold new_with_domain, compute_ntlm_hashes. rewrite Hk. cbn [obind]. rewrite Hw. cbn [obind]. rewrite Ec. reflexivity.
Qed.

(** ** Reachable states *)
Section Reach.
  Context (cfg : config) (P : prims) (V : versions) (c : client) (Hc : fresh c).
  Context (HV : forall k, V k <= 5) (HD : len (utf8 (cl_domain c)) <= 65535).
  Let m (h1 : list op) := neg_message (V (asked cfg P V c h1)) (cl_domain c).

  Lemma v_neg h : send_negociate (at_level (v_client cfg P V c h) (V (asked cfg P V c h)))
    = Val (negotiate_bytes (m h), dress (at_level c (V (asked cfg P V c h))) (StNegotiateSent (m h)) (negotiate_bytes (m h))).
  Proof.
    destruct Hc as (_ & Hn & Hd). destruct (v_client_dress cfg P V c h) as (s & b & ->).
    rewrite at_level_dress, send_negociate_dress, send_negociate_val by (assumption || apply HV).
    change (neg_message _ _) with (m h).
    assert (F : fitsb (negotiate_fields (m h)) = true) by now apply fitsb_fits, neg_message_fits.
    now rewrite F.
  Qed.
  (** The NEGOTIATE message of the last negotiate call. *)
  Definition last_neg (h : list op) (n : negotiate) : Prop :=
    exists h1 h2, h = h1 ++ OpNegociate :: h2 /\ untouched h2 /\ n = m h1.
  Lemma last_neg_fun h n n' : last_neg h n -> last_neg h n' -> n = n'.
  Proof.
    revert n n'. induction h as [|o h IH] using rev_ind; intros n n' (h1 & h2 & E & U & ->) (h1' & h2' & E' & U' & ->).
    - destruct h1; discriminate E.
    - apply snoc_split in E. apply snoc_split in E'.
      destruct E as [(-> & -> & ->)|(b & -> & ->)], E' as [(-> & E1 & E2)|(b' & -> & E1)].
      + now rewrite E1.
      + apply untouched_snoc in U'. destruct U' as [_ U']. now destruct U'.
      + subst o. apply untouched_snoc in U. destruct U as [_ U]. now destruct U.
      + apply untouched_snoc in U. apply untouched_snoc in U'. apply IH.
        * exists h1, b. tauto.
        * exists h1', b'. tauto.
  Qed.
  Lemma last_neg_snoc h o n : ~ is_negociate o -> last_neg h n -> last_neg (h ++ [o]) n.
  Proof.
    intros Ho (h1 & h2 & -> & U & ->). exists h1, (h2 ++ [o]). rewrite <- app_assoc. split; [reflexivity|].
    split; [|reflexivity]. now apply untouched_snoc.
  Qed.
  Lemma v_states h :
    (untouched h -> cl_state (v_client cfg P V c h) = StNew)
    /\ (awaiting h -> exists n, last_neg h n /\ cl_state (v_client cfg P V c h) = StNegotiateSent n)
    /\ (forall ch, accepts h ch -> exists n, last_neg h n /\ ready (cl_state (v_client cfg P V c h)) n ch).
  Proof.
    induction h as [|o h (IH1 & IH2 & IH3)] using rev_ind.
    - destruct Hc as (Hs & _). split; [intros _; exact Hs|]. split; [intros H; now apply not_awaiting_nil in H|].
      intros ch H. now apply not_accepts_nil in H.
    - rewrite v_client_snoc. destruct o as [|c'|r]; cbn [step act].
      + rewrite v_neg. cbn [fst]. split; [|split].
        * intros H. apply untouched_snoc in H. destruct H as [_ H]. now destruct H.
        * intros _. exists (m h). split; [|reflexivity]. exists h, []. split; [reflexivity|]. split; [constructor|reflexivity].
        * intros ch H. now apply accepts_snoc in H.
      + cbn [fst]. set (cv := v_client cfg P V c h) in *. split; [|split].
        * intros H. apply untouched_snoc in H. destruct H as [H _]. unfold recv_challenge.
          change (cl_state (at_level cv (V (asked cfg P V c h)))) with (cl_state cv). rewrite (IH1 H). exact (IH1 H).
        * intros H. now apply awaiting_snoc in H.
        * intros ch H. apply accepts_snoc in H. destruct H as [H|[H ->]].
          -- destruct (IH3 _ H) as (n & Ln & R). exists n. split; [apply last_neg_snoc; [intros []|exact Ln]|].
             unfold recv_challenge. change (cl_state (at_level cv (V (asked cfg P V c h)))) with (cl_state cv).
             destruct R as [E|[a E]]; rewrite E; [left|right; exists a]; exact E.
          -- destruct (IH2 H) as (n & Ln & E). exists n. split; [apply last_neg_snoc; [intros []|exact Ln]|].
             unfold recv_challenge. change (cl_state (at_level cv (V (asked cfg P V c h)))) with (cl_state cv). rewrite E. left. reflexivity.
      + set (cv := v_client cfg P V c h) in *. set (l := acts (V (asked cfg P V c h)) (V (S (asked cfg P V c h)))).
        assert (NR : forall st, cl_state cv = st -> (st = StNew \/ exists n, st = StNegotiateSent n) ->
                 exists w, send_authenticate cfg P (at_level cv l) r = Panic w).
        { intros st E Hst. apply send_authenticate_not_ready. change (cl_state (at_level cv l)) with (cl_state cv).
          intros n ch [R|[a R]]; destruct Hst as [->|[? ->]]; congruence. }
        split; [|split].
        * intros H. apply untouched_snoc in H. destruct H as [H _].
          destruct (NR _ (IH1 H) (or_introl eq_refl)) as [w ->]. exact (IH1 H).
        * intros H. apply awaiting_snoc in H. destruct (IH2 H) as (n & Ln & E). exists n. split; [apply last_neg_snoc; [intros []|exact Ln]|].
          destruct (NR _ E (or_intror (ex_intro _ n eq_refl))) as [w ->]. exact E.
        * intros ch H. apply accepts_snoc in H. destruct (IH3 _ H) as (n & Ln & R). exists n. split; [apply last_neg_snoc; [intros []|exact Ln]|].
          rewrite (send_authenticate_ready cfg P (at_level cv l) n ch r R).
          destruct (reply _ _ _ _ _ _) as [a|]; cbn [obind]; [|exact R].
          destruct (authenticate_ser _ _ _) as [[k buf]|]; cbn [obind fst]; [|exact R].
          unfold set_authenticated_state. change (cl_state (with_buffer (at_level cv l) buf)) with (cl_state cv).
          destruct R as [E|[a' E]]; rewrite E.
          -- right. exists a. reflexivity.
          -- right. exists a'. exact E.
  Qed.
  Lemma v_reply h ch r n : accepts h ch -> last_neg h n ->
    let l := acts (V (asked cfg P V c h)) (V (S (asked cfg P V c h))) in
    v_answer cfg P V c h (OpAuthenticate r) =
      match reply cfg P (at_level c l) n ch r with
      | Val a => match authenticate_ser cfg a [] with Val (_, b) => OutBytes b | Panic w => OutPanic w end
      | Panic w => OutPanic w
      end.
  Proof.
    intros A Ln l. destruct (v_states h) as (_ & _ & H3). destruct (H3 _ A) as (n' & Ln' & R).
    pose proof (last_neg_fun _ _ _ Ln' Ln) as En. subst n'. rewrite v_answer_level. cbn [step act]. fold l.
    rewrite (send_authenticate_ready cfg P (at_level (v_client cfg P V c h) l) n ch r R).
    destruct (v_client_dress cfg P V c h) as (s & b & ->). rewrite at_level_dress, reply_dress.
    destruct (reply _ _ _ _ _ _) as [a|]; cbn [obind]; [|reflexivity].
    destruct (authenticate_ser _ _ _) as [[k buf]|]; reflexivity.
  Qed.
  Lemma v_stored h n ch a : cl_state (v_client cfg P V c h) = StAuthenticateSent n ch a -> a_exported_key a <> None.
  Proof.
    revert n ch a. induction h as [|o h IH] using rev_ind; intros n ch a H.
    - destruct Hc as (Hs & _). change (cl_state c = StAuthenticateSent n ch a) in H. congruence.
    - rewrite v_client_snoc in H. destruct o as [|c'|r]; cbn [step act] in H.
      + rewrite v_neg in H. discriminate H.
      + unfold recv_challenge in H. set (cv := v_client cfg P V c h) in *.
        change (cl_state (at_level cv (V (asked cfg P V c h)))) with (cl_state cv) in H.
        destruct (cl_state cv) eqn:E; cbn [fst] in H; try discriminate H;
          change (cl_state cv = StAuthenticateSent n ch a) in H; rewrite E in H; try discriminate H; eapply IH, H.
      + set (cv := v_client cfg P V c h) in *. set (l := acts (V (asked cfg P V c h)) (V (S (asked cfg P V c h)))) in *.
        destruct (cl_state cv) as [|n0|n0 ch0|n0 ch0 a0] eqn:S.
        * destruct (send_authenticate_not_ready cfg P (at_level cv l) r) as [w W];
            [change (cl_state (at_level cv l)) with (cl_state cv); rewrite S; intros n1 ch1 [R|[a1 R]]; discriminate R|].
          rewrite W in H. change (cl_state cv = StAuthenticateSent n ch a) in H. congruence.
        * destruct (send_authenticate_not_ready cfg P (at_level cv l) r) as [w W];
            [change (cl_state (at_level cv l)) with (cl_state cv); rewrite S; intros n1 ch1 [R|[a1 R]]; discriminate R|].
          rewrite W in H. change (cl_state cv = StAuthenticateSent n ch a) in H. congruence.
        * rewrite (send_authenticate_ready cfg P (at_level cv l) n0 ch0) in H by (left; exact S).
          destruct (reply cfg P (at_level cv l) n0 ch0 r) as [a1|] eqn:Ea; cbn [obind fst] in H;
            [|change (cl_state cv = StAuthenticateSent n ch a) in H; congruence].
          destruct (authenticate_ser cfg a1 []) as [[k buf]|]; cbn [obind fst] in H;
            [|change (cl_state cv = StAuthenticateSent n ch a) in H; congruence].
          unfold set_authenticated_state in H. change (cl_state (with_buffer (at_level cv l) buf)) with (cl_state cv) in H.
          rewrite S in H. apply reply_exported in Ea. cbn in H. congruence.
        * rewrite (send_authenticate_ready cfg P (at_level cv l) n0 ch0) in H by (right; exists a0; exact S).
          destruct (reply cfg P (at_level cv l) n0 ch0 r) as [a1|] eqn:Ea; cbn [obind fst] in H;
            [|change (cl_state cv = StAuthenticateSent n ch a) in H; rewrite S in H; eapply IH, H].
          destruct (authenticate_ser cfg a1 []) as [[k buf]|]; cbn [obind fst] in H;
            [|change (cl_state cv = StAuthenticateSent n ch a) in H; rewrite S in H; eapply IH, H].
          unfold set_authenticated_state in H. change (cl_state (with_buffer (at_level cv l) buf)) with (cl_state cv) in H.
          rewrite S in H. change (cl_state cv = StAuthenticateSent n ch a) in H. rewrite S in H. eapply IH, H.
  Qed.
  Lemma v_session h ch r n : accepts h ch -> last_neg h n -> session_key (v_client cfg P V c h) = None ->
    let l := acts (V (asked cfg P V c h)) (V (S (asked cfg P V c h))) in
    forall a b, reply cfg P (at_level c l) n ch r = Val a ->
    v_answer cfg P V c h (OpAuthenticate r) = OutBytes b ->
    session_key (v_client cfg P V c (h ++ [OpAuthenticate r])) = a_exported_key a.
  Proof.
    intros A Ln SK l a b Ea B. rewrite (v_reply h ch r n A Ln) in B. fold l in B. rewrite Ea in B.
    destruct (v_states h) as (_ & _ & H3). destruct (H3 _ A) as (n' & Ln' & R).
    pose proof (last_neg_fun _ _ _ Ln' Ln) as En. subst n'. rewrite v_client_snoc. cbn [step act]. fold l.
    rewrite (send_authenticate_ready cfg P (at_level (v_client cfg P V c h) l) n ch r R).
    assert (RD : reply cfg P (at_level (v_client cfg P V c h) l) n ch r = Val a).
    { destruct (v_client_dress cfg P V c h) as (s & b' & ->). rewrite at_level_dress, reply_dress. exact Ea. }
    rewrite RD. cbn [obind]. destruct (authenticate_ser cfg a []) as [[k buf]|]; cbn [obind fst]; [|discriminate B].
    unfold session_key, set_authenticated_state in *. change (cl_state (with_buffer (at_level (v_client cfg P V c h) l) buf)) with (cl_state (v_client cfg P V c h)).
    destruct R as [R|[a' R]]; rewrite R in *; [reflexivity|].
    change (cl_state (at_level (with_buffer (at_level (v_client cfg P V c h) l) buf) (cl_level c))) with (cl_state (v_client cfg P V c h)).
    now apply v_stored in R.
  Qed.
End Reach.

(** ** Same reply, other NEGOTIATE *)
Section Other.
  Variables (cfg : config) (P : prims) (e : environment) (l : N) (user dom pw target : rstring) (c : client).
  Hypothesis M : made cfg P e l user dom pw target c.
  Hypothesis Nl : negotiable l dom.
  Variables (ch : challenge) (r : entropy).
  Hypothesis Hch : valid_challenge ch.
  Hypothesis Hr : is_entropy r.
  Variable told : N.
  Let n0 := neg_message l dom.
  Let n := neg_message told dom.
  Lemma n_ok : valid_negotiate n0 /\ fits (negotiate_fields n0) /\ valid_negotiate n /\ fits (negotiate_fields n).
  Proof.
    assert (Hd : is_string dom) by apply M. split; [now apply neg_message_valid|]. split; [apply neg_message_fits, Nl|].
    split; [now apply neg_message_valid|apply neg_message_fits, Nl].
  Qed.
  Lemma other_panics w : reply cfg P c n0 ch r = Panic w -> exists w', reply cfg P c n ch r = Panic w'.
  Proof.
    intros E. destruct (reply cfg P c n ch r) as [a|w'] eqn:E'; [|eauto]. destruct n_ok as (V0 & F0 & V1 & F1).
    destruct (reply_other_negotiate cfg P e l user dom pw target c n n0 ch r a M (proj1 Nl) Hch Hr V1 F1 V0 F0 E') as (k & Ek & _).
    congruence.
  Qed.
  Lemma other_bytes a : reply cfg P c n0 ch r = Val a ->
    exists k, reply cfg P c n ch r = Val (with_mic a k)
      /\ valid_authenticate a /\ valid_authenticate (with_mic a k) /\ a_version a = None
      /\ (l <= 2 -> k = a_mic a)
      /\ (3 <= l -> exists K x, a_exported_key a = Some K
           /\ a_mic a = p_hmac_md5 P K (negotiate_bytes n0 ++ challenge_bytes cfg ch ++ x)
           /\ k = p_hmac_md5 P K (negotiate_bytes n ++ challenge_bytes cfg ch ++ x)
           /\ u32_at x 60 = 1073741825 /\ sub x 64 16 = zeros 16).
  Proof.
    intros Ea. destruct n_ok as (V0 & F0 & V1 & F1).
    destruct (reply_other_negotiate cfg P e l user dom pw target c n0 n ch r a M (proj1 Nl) Hch Hr V0 F0 V1 F1 Ea) as (k & Ek & K0 & K1 & K2).
    assert (Va : valid_authenticate a).
    { eapply reply_valid; [exact M|exact Nl|exact Hch|exact Hr|]. exact Ea. }
    exists k. split; [exact Ek|]. split; [exact Va|]. split.
    { assert (Bk : is_buffer 16 k).
      { assert (D : l <= 2 \/ 3 <= l) by lia. destruct D as [D|D].
        - rewrite (proj1 (K1 D)). apply Va.
        - destruct (K2 D) as (K & x & _ & _ & -> & _). apply hmac_buffer, M. }
      destruct Va as (A1 & A2 & A3 & A4 & A5 & A6 & A7 & A8 & A9 & A10). repeat (split; [assumption|]). exact A10. }
    split; [exact K0|]. split; [intros D; apply (K1 D)|exact K2].
  Qed.
End Other.
Lemma mic_apart cfg a k : valid_authenticate a -> valid_authenticate (with_mic a k) -> a_version a = None ->
  let b := authenticate_bytes cfg a in let b' := authenticate_bytes cfg (with_mic a k) in
  sub b' 0 64 = sub b 0 64 /\ skipn 80 b' = skipn 80 b.
Proof.
  intros V V' Hn. assert (B : is_buffer 16 (a_mic a)) by apply V. assert (B' : is_buffer 16 k) by apply V'.
  apply len_buffer in B. apply len_buffer in B'.
  intros b b'. set (ds := concat (descriptors 80 (authenticate_fields cfg a))).
  set (hd := NTLMSSP ++ le32 3 ++ ds ++ le32 (a_flags a)).
  assert (Hds : len ds = 48).
  { unfold ds, authenticate_fields. cbn [descriptors concat]. rewrite app_nil_r, !len_app, !len_descriptor. reflexivity. }
  assert (H64 : len hd = 64) by (unfold hd; rewrite !len_app, Hds, !len_le32; reflexivity).
  assert (E : b = hd ++ a_mic a ++ contents (authenticate_fields cfg a)).
  { unfold b, authenticate_bytes, hd, ds. rewrite Hn, B. cbn [opt_version_bytes]. change (64 + len [] + 16) with 80.
    now rewrite <- !app_assoc. }
  assert (E' : b' = hd ++ k ++ contents (authenticate_fields cfg a)).
  { unfold b', authenticate_bytes, hd, ds. change (a_version (with_mic a k)) with (a_version a). change (a_mic (with_mic a k)) with k.
    change (a_flags (with_mic a k)) with (a_flags a). change (authenticate_fields cfg (with_mic a k)) with (authenticate_fields cfg a).
    rewrite Hn, B'. cbn [opt_version_bytes]. change (64 + len [] + 16) with 80. now rewrite <- !app_assoc. }
  clearbody b b'. subst b b'. split.
  - unfold sub. rewrite !skipn_O. change (N.to_nat 64) with 64%nat.
    assert (L : length hd = 64%nat) by (unfold len in H64; lia). rewrite <- L. now rewrite !firstn_app, !Nat.sub_diag, !firstn_O, !app_nil_r.
  - rewrite !(app_assoc hd). rewrite !skipn_app_exact; [reflexivity|rewrite app_length; unfold len in *; lia|rewrite app_length; unfold len in *; lia].
Qed.
Lemma neg_same l l' dom : 2 <= l -> 2 <= l' -> neg_message l dom = neg_message l' dom.
Proof.
  intros H H'. unfold neg_message, neg_flags, level_bits. replace (l =? 0) with false by lia. replace (l =? 1) with false by lia.
  replace (l' =? 0) with false by lia. replace (l' =? 1) with false by lia. reflexivity.
Qed.
Lemma acts_low l1 l2 : l1 <= 5 -> acts l1 l2 <= 5.
Proof. intros H. unfold acts. destruct (l1 <=? 2) eqn:E; [destruct (l2 =? 0)|]; lia. Qed.
Lemma accepts_last h ch : accepts h ch -> exists h1 h2, h = h1 ++ OpNegociate :: h2 /\ untouched h2.
Proof.
  intros (h1 & h2 & h3 & -> & H2 & H3). exists h1, (h2 ++ OpRecvChallenge ch :: h3). split; [reflexivity|].
  apply Forall_app. split; [|constructor; [intros []|exact H3]]. eapply Forall_impl; [|exact H2]. cbn. tauto.
Qed.

(** ** C101 *)
(** A version function that always gives the same answer: the model of
    Client.v, after every history. *)
Lemma C101_constant_lem : forall cfg P c h o,
  v_answer cfg P (fun _ => cl_level c) c h o = answer cfg P c h o.
Proof.
  intros cfg P c h o.
  assert (A : forall k p, act (fun _ => cl_level c) k p = cl_level c \/
      (exists r, p = OpAuthenticate r /\ act (fun _ => cl_level c) k p = acts (cl_level c) (cl_level c))).
  { intros k [| |r]; [left; reflexivity|left; reflexivity|right; exists r; auto]. }
  assert (ST : forall c' p k, cl_level c' = cl_level c ->
     fst (step cfg P (at_level c' (act (fun _ => cl_level c) k p)) p) = at_level (fst (step cfg P c' p)) (act (fun _ => cl_level c) k p)
     /\ snd (step cfg P (at_level c' (act (fun _ => cl_level c) k p)) p) = snd (step cfg P c' p)).
  { intros c' p k E. destruct p as [|ch|r]; cbn [act].
    - rewrite <- E, at_level_id. split; [|reflexivity]. destruct (step_dress cfg P c' OpNegociate) as (s & b & ->). now destruct c'.
    - rewrite <- E, at_level_id. split; [|reflexivity]. destruct (step_dress cfg P c' (OpRecvChallenge ch)) as (s & b & ->). now destruct c'.
    - cbn [step]. set (l := acts (cl_level c) (cl_level c)).
      assert (B : build_authenticate cfg P (at_level c' l) r = build_authenticate cfg P c' r).
      { assert (D : cl_level c <= 2 \/ 2 < cl_level c) by lia. destruct D as [D|D].
        - rewrite !build_v1; [|lia|unfold l, acts; replace (cl_level c <=? 2) with true by lia; cbn [at_level cl_level]; destruct (cl_level c =? 0); lia].
          rewrite <- (at_level_id c') at 2. apply v1_level. unfold l, acts. replace (cl_level c <=? 2) with true by lia. rewrite E.
          destruct (cl_level c =? 0); reflexivity.
        - replace l with (cl_level c') by (unfold l, acts; replace (cl_level c <=? 2) with false by lia; exact E). now rewrite at_level_id. }
      unfold send_authenticate. rewrite B. change (finish_authenticate (at_level c' l)) with (finish_authenticate c').
      destruct (build_authenticate cfg P c' r) as [a|w]; cbn [obind fst snd]; [|auto].
      destruct (authenticate_ser cfg (finish_authenticate c' a) []) as [[k1 buf]|w]; cbn [obind fst snd]; [|auto].
      split; [|reflexivity]. unfold set_authenticated_state. destruct c' as [[] ? ? ? ? ? ? ? ? ? ?]; reflexivity. }
  assert (R : v_client cfg P (fun _ => cl_level c) c h = run cfg P c h).
  { induction h as [|p h IH] using rev_ind; [reflexivity|]. rewrite v_client_snoc, run_snoc, IH.
    assert (E : cl_level (run cfg P c h) = cl_level c) by (destruct (run_dress cfg P c h) as (s & b & ->); reflexivity).
    rewrite (proj1 (ST _ p _ E)), at_level_twice, <- E at 1. destruct (step_dress cfg P (run cfg P c h) p) as (s & b & ->). now destruct (run cfg P c h). }
  rewrite v_answer_level, R. apply ST. destruct (run_dress cfg P c h) as (s & b & ->). reflexivity.
Qed.
(** The NEGOTIATE message is that of a client of the level answered during the call. *)
Lemma C101_negotiate_lem : forall cfg P V c h,
  v_answer cfg P V c h OpNegociate = answer cfg P (at_level c (V (asked cfg P V c h))) [] OpNegociate.
Proof.
  intros cfg P V c h. rewrite v_answer_level. unfold answer. cbn [run fold_left step act].
  destruct (v_client_dress cfg P V c h) as (s & b & ->). rewrite at_level_dress, send_negociate_dress.
  destruct (send_negociate _) as [[x y]|w]; reflexivity.
Qed.
(** Each negotiate call asks once, a challenge never; [send_authenticate] asks
    once, and once more exactly if the answer is 0, 1 or 2 and a challenge was
    accepted. *)
Lemma C101_asks_lem : forall cfg P e level user dom pw target c V h r ch,
  made cfg P e level user dom pw target c -> (forall k, V k <= 5) -> len (utf8 dom) <= 65535 ->
  let k := asked cfg P V c h in
  asked cfg P V c (h ++ [OpNegociate]) = S k
  /\ asked cfg P V c (h ++ [OpRecvChallenge ch]) = k
  /\ (3 <= V k -> asked cfg P V c (h ++ [OpAuthenticate r]) = S k)
  /\ (V k <= 2 -> (exists ch', accepts h ch') -> asked cfg P V c (h ++ [OpAuthenticate r]) = S (S k))
  /\ (V k <= 2 -> (forall ch', ~ accepts h ch') -> asked cfg P V c (h ++ [OpAuthenticate r]) = S k).
Proof.
  intros cfg P e level user dom pw target c V h r ch M HV HD k.
  pose proof (made_fresh _ _ _ _ _ _ _ _ _ M) as Fr. destruct (made_level _ _ _ _ _ _ _ _ _ M) as [_ Dm]. rewrite <- Dm in HD.
  unfold asked at 1 2 3 4 5. rewrite !v_run_snoc, v_run_pair. fold k. set (cv := v_client cfg P V c h).
  assert (AU : forall k', snd (v_build_authenticate cfg P V cv k r) = k' ->
     snd (fst (v_step cfg P V (cv, k) (OpAuthenticate r))) = k').
  { intros k' E. cbn [v_step]. unfold v_send_authenticate. destruct (v_build_authenticate cfg P V cv k r) as [x k1]. cbn [snd] in E. subst k1.
    destruct x as [a|w]; cbn [obind]; [|reflexivity]. destruct (authenticate_ser _ _ _) as [[? ?]|?]; reflexivity. }
  split; [|split; [reflexivity|split; [|split]]].
  - cbn [v_step]. unfold v_send_negociate. destruct (send_negociate _) as [[? ?]|?]; reflexivity.
  - intros L. apply AU. unfold v_build_authenticate. specialize (HV k).
    assert (D : V k = 3 \/ V k = 4 \/ V k = 5) by lia. destruct D as [->|[->| ->]]; reflexivity.
  - intros L (ch' & A). apply AU.
    destruct (v_states cfg P V c Fr HV HD h) as (_ & _ & X). destruct (X _ A) as (n & _ & R). fold cv in R.
    assert (G : get_challenge cv = Val ch') by (unfold get_challenge; destruct R as [->|[a ->]]; reflexivity).
    unfold v_build_authenticate, v_authenticate_ntlmv1. rewrite G.
    assert (D : V k = 0 \/ V k = 1 \/ V k = 2) by lia. destruct D as [->|[->| ->]]; reflexivity.
  - intros L A. apply AU.
    assert (G : exists w, get_challenge cv = Panic w).
    { unfold get_challenge, cv. destruct (v_states cfg P V c Fr HV HD h) as (X1 & X2 & _).
      destruct (phase h) as [(U & _)|[(W & _)|(ch' & W & _)]]; [rewrite (X1 U); eauto| |now apply A in W].
      destruct (X2 W) as (n & _ & ->). eauto. }
    destruct G as [w G]. unfold v_build_authenticate, v_authenticate_ntlmv1. rewrite G.
    assert (D : V k = 0 \/ V k = 1 \/ V k = 2) by lia. destruct D as [->|[->| ->]]; reflexivity.
Qed.
(** The reply is that of a client of one level, [acts] of the two answers --
    whatever was answered during the negotiate call -- but for the MIC. *)
Lemma C101_reply_lem : forall cfg P e level user dom pw target c V h ch r,
  made cfg P e level user dom pw target c -> (forall k, V k <= 5) -> len (utf8 dom) <= 65535 ->
  valid_challenge ch -> is_entropy r -> accepts h ch ->
  let l := acts (V (asked cfg P V c h)) (V (S (asked cfg P V c h))) in
  (forall b, replies cfg P e l user dom pw ch r b ->
    exists b', v_answer cfg P V c h (OpAuthenticate r) = OutBytes b'
      /\ sub b' 0 64 = sub b 0 64 /\ skipn 80 b' = skipn 80 b /\ (l <= 2 -> b' = b))
  /\ ((forall b, ~ replies cfg P e l user dom pw ch r b) ->
      exists w, v_answer cfg P V c h (OpAuthenticate r) = OutPanic w).
Proof.
  intros cfg P e level user dom pw target c V h ch r M HV HD Hch Hr A l.
  pose proof (made_fresh _ _ _ _ _ _ _ _ _ M) as Fr. destruct (made_level _ _ _ _ _ _ _ _ _ M) as [_ Dm].
  pose proof HD as HD'. rewrite <- Dm in HD'.
  destruct (accepts_last h ch A) as (h1 & h2 & Eh & U).
  set (told := V (asked cfg P V c h1)).
  assert (Ln : last_neg cfg P V c h (neg_message told dom)) by (exists h1, h2; rewrite <- Dm; auto).
  pose proof (v_reply cfg P V c Fr HV HD' h ch r _ A Ln) as E. cbv zeta in E. fold l in E.
  pose proof (made_at_level _ _ _ _ _ _ _ _ _ l M) as Ml. pose proof (made_fresh _ _ _ _ _ _ _ _ _ Ml) as Frl.
  assert (Nl : negotiable l dom) by (split; [apply acts_low, HV|exact HD]).
  assert (Nc : negotiable (cl_level (at_level c l)) (cl_domain (at_level c l))) by (cbn [at_level cl_level cl_domain]; now rewrite Dm).
  assert (As : answer cfg P (at_level c l) h (OpAuthenticate r)
      = match sent cfg P (at_level c l) ch r with Val b => OutBytes b | Panic w => OutPanic w end) by now apply answer_accepts.
  assert (Rf : forall b, replies cfg P e l user dom pw ch r b <-> sent cfg P (at_level c l) ch r = Val b).
  { intros b. split.
    - intros (tg & c' & h' & M' & _ & _ & A' & B).
      assert (X : sent cfg P c' ch r = sent cfg P (at_level c l) ch r).
      { destruct (made_fields _ _ _ _ _ _ _ _ _ M') as (k1 & w1 & Hk1 & Hw1 & ->).
        destruct (made_fields _ _ _ _ _ _ _ _ _ Ml) as (k2 & w2 & Hk2 & Hw2 & ->).
        assert (k2 = k1) by (apply val_inj; congruence). assert (w2 = w1) by (apply val_inj; congruence). subst k2 w2.
        reflexivity. }
      assert (Nc' : negotiable (cl_level c') (cl_domain c')) by (destruct (made_level _ _ _ _ _ _ _ _ _ M') as [-> ->]; exact Nl).
      rewrite (answer_accepts cfg P c' (made_fresh _ _ _ _ _ _ _ _ _ M') h' ch r Nc' A'), X in B.
      destruct (sent cfg P (at_level c l) ch r); [|discriminate B]. apply outbytes_inj in B. now subst.
    - intros B. exists target, (at_level c l), h. rewrite B in As. auto 10. }
  unfold sent in Rf. cbn [at_level cl_level cl_domain] in Rf. rewrite Dm in Rf. fold (at_level c l) in Rf.
  destruct (reply cfg P (at_level c l) (neg_message l dom) ch r) as [a|w] eqn:Ea; cbn [obind] in Rf.
  - destruct (other_bytes cfg P e l user dom pw target (at_level c l) Ml Nl ch r Hch Hr told a Ea) as (k & Ek & Va & Vk & Hn & K1 & K2).
    rewrite Ek in E. rewrite authenticate_ser_spec in E, Rf by assumption.
    change (authenticate_fields cfg (with_mic a k)) with (authenticate_fields cfg a) in E.
    destruct (fitsb (authenticate_fields cfg a)) eqn:Ef; cbn [obind app] in Rf, E.
    + split.
      * intros b B. apply Rf in B. apply val_inj in B. subst b. destruct (mic_apart cfg a k Va Vk Hn) as [X1 X2].
        exists (authenticate_bytes cfg (with_mic a k)). split; [exact E|]. split; [exact X1|]. split; [exact X2|].
        intros L. rewrite (K1 L). now destruct a.
      * intros X. destruct (X (authenticate_bytes cfg a)). now apply Rf.
    + split; [intros b B; apply Rf in B; discriminate B|intros _; eauto].
  - split; [intros b B; apply Rf in B; discriminate B|]. intros _.
    destruct (other_panics cfg P e l user dom pw target (at_level c l) Ml Nl ch r Hch Hr told w Ea) as [w' Ew].
    rewrite Ew in E. eauto.
Qed.
(** From level 3 on, the MIC covers the NEGOTIATE message that was sent, at the
    level answered then; the session key is the one of the client of one level.
    If the level answered then was 2 or more, so is the whole reply. *)
Lemma C101_mic_lem : forall cfg P e level user dom pw target c V h1 h2 ch r c0 target0 h0 b K nb nb0 b',
  made cfg P e level user dom pw target c -> (forall k, V k <= 5) -> len (utf8 dom) <= 65535 ->
  let h := h1 ++ OpNegociate :: h2 in
  let l := acts (V (asked cfg P V c h)) (V (S (asked cfg P V c h))) in
  untouched h2 -> accepts h ch -> 3 <= l ->
  made cfg P e l user dom pw target0 c0 -> concludes cfg P c0 h0 ch r b K ->
  v_answer cfg P V c h1 OpNegociate = OutBytes nb -> answer cfg P c0 [] OpNegociate = OutBytes nb0 ->
  v_answer cfg P V c h (OpAuthenticate r) = OutBytes b' ->
  (exists d, sub b 64 16 = p_hmac_md5 P K (nb0 ++ challenge_bytes cfg ch ++ d)
     /\ sub b' 64 16 = p_hmac_md5 P K (nb ++ challenge_bytes cfg ch ++ d)
     /\ u32_at d 60 = 1073741825 /\ sub d 64 16 = zeros 16)
  /\ (session_key (v_client cfg P V c h) = None ->
      session_key (v_client cfg P V c (h ++ [OpAuthenticate r])) = Some K)
  /\ (2 <= V (asked cfg P V c h1) -> b' = b).
Proof.
  intros cfg P e level user dom pw target c V h1 h2 ch r c0 target0 h0 b K nb nb0 b' M HV HD h l U A L M0
    (Hch & Hr & A0 & S0 & B0 & SK) Nb Nb0 B'.
  pose proof (made_fresh _ _ _ _ _ _ _ _ _ M) as Fr. destruct (made_level _ _ _ _ _ _ _ _ _ M) as [_ Dm].
  pose proof (made_fresh _ _ _ _ _ _ _ _ _ M0) as Fr0. destruct (made_level _ _ _ _ _ _ _ _ _ M0) as [Lm0 Dm0].
  pose proof HD as HD'. rewrite <- Dm in HD'.
  set (told := V (asked cfg P V c h1)).
  assert (Ln : last_neg cfg P V c h (neg_message told dom)) by (exists h1, h2; rewrite <- Dm; auto).
  pose proof (v_reply cfg P V c Fr HV HD' h ch r _ A Ln) as E. cbv zeta in E. fold l in E.
  pose proof (v_session cfg P V c Fr HV HD' h ch r _ A Ln) as VS. cbv zeta in VS. fold l in VS.
  assert (Nl : negotiable l dom) by (split; [apply acts_low, HV|exact HD]).
  assert (Nc : negotiable (cl_level c0) (cl_domain c0)) by now rewrite Lm0, Dm0.
  assert (RC : forall n, reply cfg P (at_level c l) n ch r = reply cfg P c0 n ch r).
  { intros n. pose proof (made_at_level _ _ _ _ _ _ _ _ _ l M) as Ml.
    destruct (made_fields _ _ _ _ _ _ _ _ _ M0) as (k1 & w1 & Hk1 & Hw1 & ->).
    destruct (made_fields _ _ _ _ _ _ _ _ _ Ml) as (k2 & w2 & Hk2 & Hw2 & ->).
    assert (k2 = k1) by (apply val_inj; congruence). assert (w2 = w1) by (apply val_inj; congruence). subst k2 w2. reflexivity. }
  rewrite RC in E, VS. rewrite v_answer_level in Nb. cbn [step act] in Nb. rewrite (v_neg cfg P V c Fr HV HD' h1) in Nb.
  cbn [snd] in Nb. apply outbytes_inj in Nb. rewrite Dm in Nb. fold told in Nb. subst nb.
  unfold answer in Nb0. cbn [step] in Nb0. rewrite (send_neg_run cfg P c0 Fr0 [] Nc) in Nb0. cbn [snd] in Nb0. apply outbytes_inj in Nb0.
  rewrite Lm0, Dm0 in Nb0. subst nb0.
  destruct (proj1 (after_reply cfg P c0 h0 ch r b Fr0 Nc A0 B0) S0) as (a & Ea & EK). rewrite Lm0, Dm0 in Ea. rewrite SK in EK.
  rewrite (answer_accepts cfg P c0 Fr0 h0 ch r Nc A0) in B0. unfold sent in B0. rewrite Lm0, Dm0, Ea in B0. cbn [obind] in B0.
  destruct (other_bytes cfg P e l user dom pw target0 c0 M0 Nl ch r Hch Hr told a Ea) as (k & Ek & Va & Vk & Hn & _ & K2).
  rewrite Ek in E. rewrite authenticate_ser_spec in E, B0 by assumption.
  change (authenticate_fields cfg (with_mic a k)) with (authenticate_fields cfg a) in E.
  destruct (fitsb (authenticate_fields cfg a)) eqn:Ef; cbn [obind app] in B0, E; [|discriminate B0].
  apply outbytes_inj in B0. subst b. rewrite B' in E. apply (f_equal (fun x => match x with OutBytes y => y | _ => [] end)) in E. cbn beta iota in E. subst b'.
  apply fitsb_fits in Ef.
  destruct (authenticate_by_offset_version cfg a Va Ef) as (_ & C2 & _).
  destruct (authenticate_by_offset_version cfg (with_mic a k) Vk Ef) as (_ & D2 & _). change (a_version (with_mic a k)) with (a_version a) in D2.
  rewrite Hn in C2, D2. change (64 + len (opt_version_bytes None)) with 64 in C2, D2. change (a_mic (with_mic a k)) with k in D2.
  destruct (K2 L) as (K' & x & X1 & X2 & X3 & X4 & X5). rewrite X1 in EK. apply some_inj in EK. subst K'.
  split; [|split].
  - exists x. rewrite C2, D2. auto.
  - intros N0. rewrite (VS N0 _ _ Ek B'). exact X1.
  - intros T. assert (G : neg_message told dom = neg_message l dom) by (apply neg_same; [exact T|lia]).
    rewrite G, Ea in Ek. apply val_inj in Ek. now rewrite Ek.
Qed.
(** An answer above 5 makes both sends panic, and leaves the client as it was. *)
Lemma C101_panics_lem : forall cfg P V c h o,
  5 < V (asked cfg P V c h) -> (o = OpNegociate \/ exists r, o = OpAuthenticate r) ->
  (exists w, v_answer cfg P V c h o = OutPanic w)
  /\ v_client cfg P V c (h ++ [o]) = v_client cfg P V c h
  /\ asked cfg P V c (h ++ [o]) = S (asked cfg P V c h).
Proof.
  intros cfg P V c h o H Ho. set (k := asked cfg P V c h) in *. unfold v_answer, v_client, asked.
  rewrite v_run_snoc, v_run_pair. fold k. set (cv := v_client cfg P V c h). cbn [fst snd].
  destruct Ho as [->|[r ->]]; cbn [v_step].
  - unfold v_send_negociate, send_negociate. destruct (negociate_message_panic (at_level cv (V k)) H) as [w ->].
    cbn [obind fst snd]. eauto.
  - assert (B : v_build_authenticate cfg P V cv k r = (Panic PUnreachable, S k)).
    { unfold v_build_authenticate. destruct (V k) as [|[[[]|[]|]|[[]|[]|]|]]; reflexivity || lia. }
    unfold v_send_authenticate. rewrite B. cbn [obind fst snd]. eauto.
Qed.
Example C101_ex_lem :
  made cfg_debug real_prims host_env 3 str_User str_Domain str_Password str_target (sample_client 3)
  /\ (forall k, turning 6 0 3 k <= 5) /\ len (utf8 str_Domain) <= 65535
  /\ valid_challenge sealed_challenge /\ is_entropy sample_entropy
  /\ accepts (sample_history sealed_challenge) sealed_challenge
  /\ asked cfg_debug real_prims (turning 4 0 3) (sample_client 3) (sample_history sealed_challenge) = 4%nat
  /\ acts 3 3 = 3
  /\ concludes cfg_debug real_prims (sample_client 3) (sample_history sealed_challenge) sealed_challenge sample_entropy
       (sample_reply 3 sealed_challenge) (repeat 85 16)
  /\ (exists b' nb nb0,
        v_answer cfg_debug real_prims (turning 4 0 3) (sample_client 3) (sample_history sealed_challenge) (OpAuthenticate sample_entropy) = OutBytes b'
        /\ b' <> sample_reply 3 sealed_challenge
        /\ v_answer cfg_debug real_prims (turning 4 0 3) (sample_client 3) [OpAuthenticate sample_entropy; OpRecvChallenge old_challenge; OpNegociate; OpRecvChallenge versioned_challenge] OpNegociate = OutBytes nb
        /\ answer cfg_debug real_prims (sample_client 3) [] OpNegociate = OutBytes nb0 /\ nb <> nb0
        /\ session_key (v_client cfg_debug real_prims (turning 4 0 3) (sample_client 3) (sample_history sealed_challenge)) = None)
  /\ (exists w, v_answer cfg_debug real_prims (turning 4 0 6) (sample_client 3) (sample_history sealed_challenge) (OpAuthenticate sample_entropy) = OutPanic w).
Proof.
  split; [apply sample_made|]. split; [intros k; unfold turning; destruct (k <? 6)%nat; lia|].
  split; [apply sample_negotiable with (level := 0); lia|]. split; [exact sealed_valid|]. split; [exact sample_entropy_ok|].
  split; [apply sample_accepts|]. split; [vm_compute; reflexivity|]. split; [reflexivity|].
  split; [apply sample_concludes; [exact sealed_valid|vm_compute; reflexivity|vm_compute; reflexivity|vm_compute; reflexivity]|].
  split; [|eexists; vm_compute; reflexivity].
  eexists. eexists. eexists. split; [vm_compute; reflexivity|]. split; [intros X; revert X; vm_compute; discriminate|].
  split; [vm_compute; reflexivity|]. split; [vm_compute; reflexivity|].
  split; [intros X; revert X; vm_compute; discriminate|]. vm_compute. reflexivity.
Qed.
(** Not every reply is one of a client of one level. *)
Lemma C101_one_level_refuted_lem :
  ~ (forall cfg P e level user dom pw target c V h ch r b,
      made cfg P e level user dom pw target c -> (forall k, V k <= 5) -> valid_challenge ch -> is_entropy r -> accepts h ch ->
      v_answer cfg P V c h (OpAuthenticate r) = OutBytes b ->
      exists l, replies cfg P e l user dom pw ch r b).
Proof.
  intros H.
  destruct C101_ex_lem as (M & HV & _ & Hv & Hr & A & _ & _ & C & (b' & nb & nb0 & B & Nb & _) & _).
  assert (HV' : forall k, turning 4 0 3 k <= 5) by (intros k; unfold turning; destruct (k <? 4)%nat; lia).
  destruct (H _ _ _ _ _ _ _ _ _ _ _ _ _ _ M HV' Hv Hr A B) as [l R].
  pose proof R as (tg & c' & h' & M' & _ & _ & A' & B1).
  pose proof (bytes_negotiable _ _ _ _ _ _ _ _ _ _ _ _ M' B1) as N.
  rewrite (C23_accepted_challenge_counts_lem _ _ _ _ _ _ _ _ _ h' _ _ M' N A') in B1.
  destruct (made_fields _ _ _ _ _ _ _ _ _ M') as (k1 & w1 & Hk1 & Hw1 & E).
  destruct (made_fields _ _ _ _ _ _ _ _ _ (sample_made l)) as (k2 & w2 & Hk2 & Hw2 & E2).
  assert (k2 = k1) by (apply val_inj; congruence). assert (w2 = w1) by (apply val_inj; congruence). subst k2 w2.
  assert (Q : exists m, sub b' 64 16 = m /\ sub (match v_answer cfg_debug real_prims (turning 4 0 3) (sample_client 3)
      (sample_history sealed_challenge) (OpAuthenticate sample_entropy) with OutBytes y => y | _ => [] end) 64 16 = m).
  { rewrite B. eexists. split; reflexivity. }
  destruct Q as (m & Q1 & Q2). vm_compute in Q2.
  assert (L : exists b1, answer cfg_debug real_prims c' [OpNegociate; OpRecvChallenge sealed_challenge] (OpAuthenticate sample_entropy) = OutBytes b1
       /\ sub b1 64 16 <> sub b' 64 16).
  { rewrite Q1, <- Q2. destruct N as [N _].
    assert (K : Val k1 = lmowfv1 real_prims str_Password) by (symmetry; exact Hk1). vm_compute in K. apply val_inj in K.
    assert (W : Val w1 = get_workstation_name real_prims host_env) by (symmetry; exact Hw1). vm_compute in W. apply val_inj in W.
    rewrite E, K, W. clear - N.
    assert (D : l = 0 \/ l = 1 \/ l = 2 \/ l = 3 \/ l = 4 \/ l = 5) by lia.
    destruct D as [->|[->|[->|[->|[->| ->]]]]]; (eexists; split; [vm_compute; reflexivity|intros X; revert X; vm_compute; discriminate]). }
  destruct L as (b1 & X1 & X2). rewrite X1 in B1. apply outbytes_inj in B1. subst b1. now apply X2.
Qed.
