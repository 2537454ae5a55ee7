(** Nobody learns the session key without the keys of the account. *)
From Coq Require Import ZifyBool ZifyNat ZifyN.
From Verif Require Import Base Nom Unicode Wire Structures Prims Messages Crypto Client Spec SpecBuild SpecCrypto SpecClient SpecServer SpecLmv2 Lib Encode Decode RoundTrip Parse Samples FactsEncode FactsDecode FactsBuild DesKey RealPrims FactsCrypto SamplesClient History Reply FactsClient SpecTrace Trace FactsTrace SamplesLabour SamplesLmv2 SamplesTiming FactsServer FactsLmv2 FactsTiming SamplesPlaces FactsPlaces SpecQueries SamplesQueries FactsQueries SpecForgery SamplesForgery FactsForgery SpecBlocks SamplesBlocks FactsBlocks SpecSecrecy SamplesSecrecy FactsReply FactsSecrecy SpecUses SamplesUses FactsUses SpecPry SamplesPry.

Ltac Zify.zify_post_hook ::= Z.div_mod_to_equations.

(** There are 2^128 keys. *)
Lemma fresh_key (l : list bytes) : N.of_nat (length l) < 2 ^ 128 -> exists v, is_buffer 16 v /\ ~ In v l.
Proof.
  intros H. set (f := fun n => le_enc 16 (N.of_nat n)).
  destruct (Forall_Exists_dec (fun v => In v l) (fun v => in_dec (list_eq_dec N.eq_dec) v l) (map f (seq 0 (S (length l))))) as [A|E].
  - exfalso. assert (ND : NoDup (map f (seq 0 (S (length l))))).
    { apply (NoDup_map_inv (fun b => N.to_nat (le_dec b))). rewrite map_map, (map_ext_in _ (fun n => n)); [rewrite map_id; apply seq_NoDup|].
      intros n I. apply in_seq in I. unfold f. rewrite le_dec_enc by (change (256 ^ N.of_nat 16) with (2 ^ 128); lia). apply Nat2N.id. }
    apply NoDup_incl_length with (l' := l) in ND; [rewrite map_length, seq_length in ND; lia|].
    intros v I. rewrite Forall_forall in A. now apply A.
  - apply Exists_exists in E as (v & I & N). exists v. split; [|exact N]. apply in_map_iff in I as (n & <- & _).
    unfold f. split; [apply le_enc_length|apply le_enc_bytes].
Qed.

(** A game only adds calls and points. *)
Lemma think_grows cfg P cs s : forall l r g hs es,
  f_calls (think cfg P cs s l r g hs es) = l /\ f_draws (think cfg P cs s l r g hs es) = r
  /\ (exists x, f_after (think cfg P cs s l r g hs es) = g ++ x)
  /\ (exists y, f_macs (think cfg P cs s l r g hs es) = hs ++ y) /\ (exists z, f_streams (think cfg P cs s l r g hs es) = es ++ z).
Proof.
  induction s as [G|i o f IH|k m f IH|k n f IH]; intros l r g hs es; cbn [think].
  - repeat split; exists []; now rewrite app_nil_r.
  - destruct (IH (answer cfg P (cs i) (calls_to i (l ++ (0%nat, OpAuthenticate r) :: g)) o) l r (g ++ [(i, o)]) hs es) as (X1 & X2 & [x X] & Y & Z).
    repeat (split; [assumption|]). split; [|now split]. exists ([(i, o)] ++ x). now rewrite X, <- app_assoc.
  - destruct (IH (p_hmac_md5 P k m) l r g (hs ++ [(k, m)]) es) as (X1 & X2 & X & [y Y] & Z).
    repeat (split; [assumption|]). split; [|exact Z]. exists ([(k, m)] ++ y). now rewrite Y, <- app_assoc.
  - destruct (IH (p_rc4_stream P k n) l r g hs (es ++ [(k, n)])) as (X1 & X2 & X & Y & [z Z]).
    repeat (split; [assumption|]). exists ([(k, n)] ++ z). now rewrite Z, <- app_assoc.
Qed.
Lemma pry_grows cfg P cs sk s : forall l hs es,
  (exists x, f_calls (pry cfg P cs sk s l hs es) = l ++ x)
  /\ (exists y, f_macs (pry cfg P cs sk s l hs es) = hs ++ y) /\ (exists z, f_streams (pry cfg P cs sk s l hs es) = es ++ z).
Proof.
  induction s as [i o f IH|k m f IH|k n f IH|cc t f]; intros l hs es; cbn [pry].
  - destruct (IH (answer cfg P (cs i) (calls_to i l) o) (l ++ [(i, o)]) hs es) as ([x X] & Y & Z).
    split; [|now split]. exists ([(i, o)] ++ x). now rewrite X, <- app_assoc.
  - destruct (IH (p_hmac_md5 P k m) l (hs ++ [(k, m)]) es) as (X & [y Y] & Z).
    split; [exact X|]. split; [|exact Z]. exists ([(k, m)] ++ y). now rewrite Y, <- app_assoc.
  - destruct (IH (p_rc4_stream P k n) l hs (es ++ [(k, n)])) as (X & Y & [z Z]).
    split; [exact X|]. split; [exact Y|]. exists ([(k, n)] ++ z). now rewrite Z, <- app_assoc.
  - cbv zeta. destruct (think_grows cfg P cs (f (answer cfg P (cs 0%nat) (calls_to 0 l) (OpAuthenticate (mkEntropy cc sk t)))) l (mkEntropy cc sk t) [] hs es) as (X1 & _ & _ & Y & Z).
    split; [|now split]. exists []. now rewrite X1, app_nil_r.
Qed.
(** Two histories that may differ in one call: what comes after is answered the same. *)
Lemma transcript_there cfg P P' c h h' o o' g : length h' = length h ->
  transcript cfg P' c (h' ++ o' :: g) = transcript cfg P c (h ++ o :: g) ->
  answer cfg P' c h' o' = answer cfg P c h o.
Proof.
  intros L E. rewrite !transcript_app in E. apply (f_equal (skipn (length h))) in E.
  rewrite !skipn_app, !transcript_len, L, !Nat.sub_diag in E.
  rewrite (skipn_all2 (transcript cfg P' c h')), (skipn_all2 (transcript cfg P c h)) in E by (rewrite transcript_len; lia).
  cbn [transcript app skipn] in E. now injection E as E _.
Qed.
Lemma transcript_later cfg P P' c h h' o g : length h' = length h ->
  transcript cfg P' c (h' ++ o :: g) = transcript cfg P c (h ++ o :: g) ->
  answer cfg P' c h' o = answer cfg P c h o.
Proof. apply transcript_there. Qed.
Lemma transcript_before cfg P P' c h h' g g' : length h' = length h ->
  transcript cfg P' c (h' ++ g') = transcript cfg P c (h ++ g) -> transcript cfg P' c h' = transcript cfg P c h.
Proof.
  intros L E. rewrite !transcript_app in E. apply (f_equal (firstn (length h))) in E.
  rewrite !firstn_app, !transcript_len, L, !Nat.sub_diag, !app_nil_r in E.
  rewrite !firstn_all2 in E by (rewrite transcript_len; lia). exact E.
Qed.
Lemma calls_to_one i o : calls_to i [(i, o)] = [o].
Proof. cbn [calls_to]. now rewrite Nat.eqb_refl. Qed.
Lemma calls_to_drawn i l r r' g : length (calls_to i (l ++ (0%nat, OpAuthenticate r') :: g)) = length (calls_to i (l ++ (0%nat, OpAuthenticate r) :: g)).
Proof. rewrite !calls_to_app, !app_length. f_equal. cbn [calls_to]. now destruct (Nat.eqb i 0). Qed.
Lemma think_agree cfg P P' cs s : forall l r r' g hs es,
  let d := think cfg P cs s l r g hs es in
  (forall i, transcript cfg P' (cs i) (calls_to i (l ++ (0%nat, OpAuthenticate r') :: f_after d))
     = transcript cfg P (cs i) (calls_to i (l ++ (0%nat, OpAuthenticate r) :: f_after d))) ->
  (forall k m, In (k, m) (f_macs d) -> p_hmac_md5 P' k m = p_hmac_md5 P k m) ->
  (forall k n, In (k, n) (f_streams d) -> p_rc4_stream P' k n = p_rc4_stream P k n) ->
  think cfg P' cs s l r' g hs es = mkFinding (f_calls d) r' (f_after d) (f_macs d) (f_streams d) (f_claim d).
Proof.
  induction s as [G|i o f IH|k m f IH|k n f IH]; intros l r r' g hs es; cbn [think]; intros T Q R.
  - reflexivity.
  - destruct (think_grows cfg P cs (f (answer cfg P (cs i) (calls_to i (l ++ (0%nat, OpAuthenticate r) :: g)) o)) l r (g ++ [(i, o)]) hs es) as (_ & _ & [x X] & _).
    rewrite (transcript_later cfg P P' (cs i) (calls_to i (l ++ (0%nat, OpAuthenticate r) :: g)) (calls_to i (l ++ (0%nat, OpAuthenticate r') :: g)) o (calls_to i x));
      [now apply IH|apply calls_to_drawn|].
    specialize (T i). rewrite X in T.
    assert (Z : forall r0, calls_to i (l ++ (0%nat, OpAuthenticate r0) :: (g ++ [(i, o)]) ++ x) = calls_to i (l ++ (0%nat, OpAuthenticate r0) :: g) ++ o :: calls_to i x).
    { intros r0. replace (l ++ (0%nat, OpAuthenticate r0) :: (g ++ [(i, o)]) ++ x) with ((l ++ (0%nat, OpAuthenticate r0) :: g) ++ [(i, o)] ++ x)
        by (rewrite <- !app_assoc; reflexivity).
      rewrite !calls_to_app, calls_to_one. reflexivity. }
    rewrite !Z in T. exact T.
  - destruct (think_grows cfg P cs (f (p_hmac_md5 P k m)) l r g (hs ++ [(k, m)]) es) as (_ & _ & _ & [y Y] & _).
    rewrite Q; [now apply IH|]. rewrite Y, <- app_assoc. apply in_or_app. right. now left.
  - destruct (think_grows cfg P cs (f (p_rc4_stream P k n)) l r g hs (es ++ [(k, n)])) as (_ & _ & _ & _ & [z Z]).
    rewrite R; [now apply IH|]. rewrite Z, <- app_assoc. apply in_or_app. right. now left.
Qed.
Lemma pry_agree cfg P P' cs sk sk' s : forall l hs es,
  let d := pry cfg P cs sk s l hs es in
  let r' := mkEntropy (e_client_challenge (f_draws d)) sk' (e_clock (f_draws d)) in
  (forall i, transcript cfg P' (cs i) (calls_to i (f_calls d ++ (0%nat, OpAuthenticate r') :: f_after d))
     = transcript cfg P (cs i) (calls_to i (all_calls d))) ->
  (forall k m, In (k, m) (f_macs d) -> p_hmac_md5 P' k m = p_hmac_md5 P k m) ->
  (forall k n, In (k, n) (f_streams d) -> p_rc4_stream P' k n = p_rc4_stream P k n) ->
  pry cfg P' cs sk' s l hs es = mkFinding (f_calls d) r' (f_after d) (f_macs d) (f_streams d) (f_claim d).
Proof.
  induction s as [i o f IH|k m f IH|k n f IH|cc t f]; intros l hs es; cbn [pry]; intros T Q R.
  - destruct (pry_grows cfg P cs sk (f (answer cfg P (cs i) (calls_to i l) o)) (l ++ [(i, o)]) hs es) as ([x X] & _).
    rewrite (transcript_answer cfg P P' (cs i) (calls_to i l) o (calls_to i x)); [now apply IH|].
    specialize (T i). unfold all_calls in T. rewrite X in T. rewrite <- !app_assoc, !(calls_to_app i l) in T.
    rewrite !(calls_to_app i [(i, o)]), calls_to_one, !(calls_to_app i x) in T.
    rewrite !(app_assoc (calls_to i l)) in T. rewrite !(app_assoc _ (calls_to i x)) in T.
    apply transcript_before in T; [|reflexivity]. rewrite <- app_assoc in T. exact T.
  - destruct (pry_grows cfg P cs sk (f (p_hmac_md5 P k m)) l (hs ++ [(k, m)]) es) as (_ & [y Y] & _).
    rewrite Q; [now apply IH|]. rewrite Y, <- app_assoc. apply in_or_app. right. now left.
  - destruct (pry_grows cfg P cs sk (f (p_rc4_stream P k n)) l hs (es ++ [(k, n)])) as (_ & _ & [z Z]).
    rewrite R; [now apply IH|]. rewrite Z, <- app_assoc. apply in_or_app. right. now left.
  - cbv zeta in *. unfold all_calls in T.
    destruct (think_grows cfg P cs (f (answer cfg P (cs 0%nat) (calls_to 0 l) (OpAuthenticate (mkEntropy cc sk t)))) l (mkEntropy cc sk t) [] hs es) as (X1 & X2 & _).
    rewrite X1, X2 in *. cbn [e_client_challenge e_clock] in *.
    assert (A : answer cfg P' (cs 0%nat) (calls_to 0 l) (OpAuthenticate (mkEntropy cc sk' t)) = answer cfg P (cs 0%nat) (calls_to 0 l) (OpAuthenticate (mkEntropy cc sk t))).
    { specialize (T 0%nat). rewrite !calls_to_app in T. cbn [calls_to Nat.eqb] in T.
      apply (transcript_there cfg P P' (cs 0%nat) (calls_to 0 l)) in T; [exact T|reflexivity]. }
    rewrite A.
    rewrite (think_agree cfg P P' cs _ l (mkEntropy cc sk t) (mkEntropy cc sk' t)); [now rewrite X1|exact T|exact Q|exact R].
Qed.

(** The replies asked for are no more than the calls, and so are the keys that were used in
    them. *)
Lemma answered_by calls : exists l, (length l <= length calls)%nat
  /\ forall i ch r, answered (calls_to i calls) ch r -> In (i, (ch, r)) l.
Proof.
  induction calls as [|[j o] calls IH] using rev_ind.
  { exists []. split; [reflexivity|]. intros i ch r ([|? ?] & ? & E & _); discriminate E. }
  destruct IH as (l & L & H).
  assert (W : exists l', (length l' <= 1)%nat /\ forall ch r, o = OpAuthenticate r -> accepts (calls_to j calls) ch -> In (j, (ch, r)) l').
  { destruct o as [|c|r0]; try (exists []; split; [cbn; lia|discriminate]).
    destruct (phase (calls_to j calls)) as [(_ & _ & N)|[(_ & _ & N)|(ch0 & _ & _ & _ & N)]].
    - exists []. split; [cbn; lia|]. intros ch r _ A. destruct (N ch A).
    - exists []. split; [cbn; lia|]. intros ch r _ A. destruct (N ch A).
    - exists [(j, (ch0, r0))]. split; [reflexivity|]. intros ch r E A. injection E as <-. rewrite (N ch A). now left. }
  destruct W as (l' & L' & H'). exists (l ++ l'). split; [rewrite !app_length; cbn [length]; lia|].
  intros i ch r A. apply in_or_app. rewrite calls_to_app in A. cbn [calls_to] in A. destruct (Nat.eqb i j) eqn:E.
  - apply Nat.eqb_eq in E. subst j. apply answered_snoc in A as [A|[Q A]]; [left; eauto|right; eauto].
  - rewrite app_nil_r in A. left. eauto.
Qed.
Lemma called_in i calls : calls_to i calls <> [] -> In i (map fst calls).
Proof.
  induction calls as [|[j o] l IH]; cbn [calls_to map fst]; [intros X; now destruct X|]. destruct (Nat.eqb i j) eqn:E.
  - apply Nat.eqb_eq in E. subst j. intros _. now left.
  - intros X. right. now apply IH.
Qed.
Lemma keys_used cfg P ps calls : exists l, (length l <= 4 * length calls)%nat
  /\ (forall i ch r t, answered (calls_to i calls) ch r -> response_time ch r = Some t -> In (session_key_of cfg P (key_of P (ps i)) ch r t) l)
  /\ forall i k m, calls_to i calls <> [] -> person_asks cfg P (ps i) (calls_to i calls) k m -> In k l.
Proof.
  destruct (answered_by calls) as (l & L & H).
  set (f := fun i => let p := ps i in [NTOWFv1 P (pe_password p); p_md4 P (NTOWFv1 P (pe_password p)); key_of P p]).
  set (g := fun a : nat * (challenge * entropy) => let (i, cr) := a in
      match response_time (fst cr) (snd cr) with Some t => session_key_of cfg P (key_of P (ps i)) (fst cr) (snd cr) t | None => [] end).
  assert (S : forall i ch r t, answered (calls_to i calls) ch r -> response_time ch r = Some t -> In (session_key_of cfg P (key_of P (ps i)) ch r t) (map g l)).
  { intros i ch r t A T. apply in_map_iff. exists (i, (ch, r)). split; [|now apply H]. unfold g. cbn [fst snd]. now rewrite T. }
  exists (flat_map f (map fst calls) ++ map g l). split; [|split].
  - assert (X : length (flat_map f (map fst calls)) = (3 * length calls)%nat).
    { clear. induction calls as [|a calls IH]; [reflexivity|]. cbn [map flat_map]. rewrite app_length, IH. cbn [length f]. lia. }
    rewrite app_length, map_length, X. lia.
  - intros i ch r t A T. apply in_or_app. right. now apply S.
  - intros i k m C A. apply in_or_app.
    assert (X : forall x, In x (f i) -> In x (flat_map f (map fst calls))).
    { intros x I. apply in_flat_map. exists i. split; [now apply called_in|exact I]. }
    destruct A as [[-> _]|(ch & r & A & [(_ & -> & _)|(_ & t & T & [[-> _]|[-> _]])])].
    + left. apply X. now left.
    + left. apply X. right. now left.
    + left. apply X. right. right. now left.
    + right. now apply S.
Qed.
Lemma calls_to_forall (Q : op -> Prop) i calls : Forall Q (map snd calls) -> Forall Q (calls_to i calls).
Proof.
  induction calls as [|[j o] l IH]; cbn [calls_to map snd]; intros H; [constructor|]. apply Forall_cons_iff in H as [H1 H2].
  destruct (Nat.eqb i j); [constructor; auto|auto].
Qed.
(** What the others say in another world. *)
Lemma others_agree cfg P P' ps calls i : host_le cfg = true -> person_made cfg P (ps i) -> Forall typed_call (map snd calls) ->
  prims_ok P' -> same_but_hmac_rc4 P P' ->
  (forall k m, person_asks cfg P (ps i) (calls_to i calls) k m -> p_hmac_md5 P' k m = p_hmac_md5 P k m) ->
  (forall k n, person_enciphers cfg P (ps i) (calls_to i calls) k n -> p_rc4_stream P' k n = p_rc4_stream P k n) ->
  person_made cfg P' (ps i)
  /\ transcript cfg P' (pe_client (ps i)) (calls_to i calls) = transcript cfg P (pe_client (ps i)) (calls_to i calls).
Proof.
  intros HLE M TC HP' (S1 & S2 & S3 & S4) H R.
  assert (SU : same_uses cfg P P' (pe_level (ps i)) (pe_user (ps i)) (pe_domain (ps i)) (pe_password (ps i)) (calls_to i calls)).
  2:{ destruct (C128_uses_lem cfg P P' _ _ _ _ _ _ _ _ HLE M (calls_to_forall _ i _ TC) HP' SU) as (M' & T & _). now split. }
  split; [now rewrite S1|]. split; [now rewrite S2|]. split; [exact H|]. split; [now rewrite S3|]. split; [exact R|exact S4].
Qed.
(** All of it, for a world in which the client 0 says the same. *)
Lemma pry_world cfg P P' ps sk s r' : host_le cfg = true ->
  let d := pry cfg P (fun i => pe_client (ps i)) sk s [] [] [] in
  (forall i, person_made cfg P (ps i)) -> Forall typed_call (map snd (other_calls d)) ->
  person_made cfg P' (ps 0%nat) -> same_but_hmac_rc4 P P' ->
  e_client_challenge r' = e_client_challenge (f_draws d) -> e_clock r' = e_clock (f_draws d) ->
  transcript cfg P' (pe_client (ps 0%nat)) (calls_to 0 (f_calls d) ++ OpAuthenticate r' :: calls_to 0 (f_after d))
  = transcript cfg P (pe_client (ps 0%nat)) (calls_to 0 (f_calls d) ++ OpAuthenticate (f_draws d) :: calls_to 0 (f_after d)) ->
  (forall i k m, others d i -> person_asks cfg P (ps i) (calls_to i (other_calls d)) k m -> p_hmac_md5 P' k m = p_hmac_md5 P k m) ->
  (forall i k n, others d i -> person_enciphers cfg P (ps i) (calls_to i (other_calls d)) k n -> p_rc4_stream P' k n = p_rc4_stream P k n) ->
  (forall k m, In (k, m) (f_macs d) -> p_hmac_md5 P' k m = p_hmac_md5 P k m) ->
  (forall k n, In (k, n) (f_streams d) -> p_rc4_stream P' k n = p_rc4_stream P k n) ->
  (forall i, others d i -> person_made cfg P' (ps i))
  /\ let d' := pry cfg P' (fun i => pe_client (ps i)) (e_session_key r') s [] [] [] in
     same_finding d d' /\ same_talk cfg P P' ps d d' /\ f_draws d' = r'.
Proof.
  intros HLE d M TC M0 SB R1 R2 T0 OH OR QH QR.
  assert (HP' : prims_ok P') by apply M0.
  assert (O : forall i, others d i -> person_made cfg P' (ps i)
    /\ transcript cfg P' (pe_client (ps i)) (calls_to i (other_calls d)) = transcript cfg P (pe_client (ps i)) (calls_to i (other_calls d))).
  { intros i X. apply others_agree; try assumption; [apply M|..]; intros; eauto. }
  split. { intros i X. now apply O. }
  assert (Er : mkEntropy (e_client_challenge (f_draws d)) (e_session_key r') (e_clock (f_draws d)) = r').
  { rewrite <- R1, <- R2. now destruct r'. }
  assert (TALK : forall i, transcript cfg P' (pe_client (ps i)) (calls_to i (f_calls d ++ (0%nat, OpAuthenticate r') :: f_after d))
     = transcript cfg P (pe_client (ps i)) (calls_to i (all_calls d))).
  { intros i. unfold all_calls. destruct i as [|i].
    - rewrite !calls_to_app. exact T0.
    - rewrite !calls_to_app. cbn [calls_to Nat.eqb]. rewrite <- calls_to_app. fold (other_calls d).
      destruct (calls_to (S i) (other_calls d)) as [|o l] eqn:E; [reflexivity|].
      assert (X : others d (S i)) by (split; [discriminate|rewrite E; discriminate]).
      apply O in X as [_ X]. rewrite E in X. exact X. }
  assert (PA : pry cfg P' (fun i => pe_client (ps i)) (e_session_key r') s [] [] [] = mkFinding (f_calls d) r' (f_after d) (f_macs d) (f_streams d) (f_claim d)).
  { rewrite <- Er. apply (pry_agree cfg P P' (fun i => pe_client (ps i))); fold d; [|assumption..]. rewrite Er. exact TALK. }
  cbv zeta. rewrite PA. split; [repeat split; assumption|]. split; [exact TALK|reflexivity].
Qed.

(** The world of C121 for the whole game. *)
Lemma open_world : forall cfg P ps sk s ch t b K, host_le cfg = true -> 3 <= pe_level (ps 0%nat) ->
  (forall i, person_made cfg P (ps i)) ->
  let k2 := key_of P (ps 0%nat) in
  let d := pry cfg P (fun i => pe_client (ps i)) sk s [] [] [] in
  let proof := proof_of cfg P k2 ch (f_draws d) t in
  let base := base_key_of cfg P k2 ch (f_draws d) t in
  Forall typed_call (map snd (other_calls d)) ->
  concludes cfg P (pe_client (ps 0%nat)) (calls_to 0 (f_calls d)) ch (f_draws d) b K -> response_time ch (f_draws d) = Some t ->
  NTOWFv1 P (pe_password (ps 0%nat)) <> k2 ->
  unrepeated cfg P k2 (calls_to 0 (other_calls d)) ch (f_draws d) t ->
  (forall i, others d i -> ~ person_asks cfg P (ps i) (calls_to i (other_calls d)) k2 proof) ->
  (forall i n, others d i -> ~ person_enciphers cfg P (ps i) (calls_to i (other_calls d)) base n) ->
  ~ In (k2, proof) (f_macs d) -> (forall n, ~ In (base, n) (f_streams d)) ->
  exists excluded, (length excluded <= 4 * length (other_calls d) + length (f_macs d) + 2)%nat
  /\ forall K' F, is_buffer 16 K' -> ~ In K' excluded -> (forall m, is_buffer 16 (F m)) ->
  exists P' sk', person_made cfg P' (ps 0%nat) /\ (forall i, others d i -> person_made cfg P' (ps i)) /\ key_of P' (ps 0%nat) = k2
    /\ let d' := pry cfg P' (fun i => pe_client (ps i)) sk' s [] [] [] in
       same_finding d d' /\ same_talk cfg P P' ps d d'
       /\ concludes cfg P' (pe_client (ps 0%nat)) (calls_to 0 (f_calls d)) ch (f_draws d') b K'
       /\ forall m, m <> v2_mac_input cfg (neg_message (pe_level (ps 0%nat)) (pe_domain (ps 0%nat))) ch
              (v2_draft cfg P (ntowfv2 cfg P (pe_user (ps 0%nat)) (ntowfv1 cfg P (pe_password (ps 0%nat))) (pe_domain (ps 0%nat)))
                 (pe_user (ps 0%nat)) (pe_domain (ps 0%nat)) ch (f_draws d) t) ->
            p_hmac_md5 P' K' m = F m.
Proof.
  intros cfg P ps sk s ch t b K HLE L M k2 d proof base TC C T NK U OH OR NH NR.
  destruct (keys_used cfg P ps (other_calls d)) as (l & Ll & Hs & Ha).
  exists ([NTOWFv1 P (pe_password (ps 0%nat)); k2] ++ l ++ map fst (f_macs d)). split.
  { rewrite !app_length, map_length. cbn [length]. lia. }
  intros K' F HK' NV HF.
  assert (C0 : calls_to 0 (other_calls d) = calls_to 0 (f_calls d) ++ calls_to 0 (f_after d)) by apply calls_to_app.
  assert (UK : unused_key cfg P (pe_user (ps 0%nat)) (pe_domain (ps 0%nat)) (pe_password (ps 0%nat)) (calls_to 0 (other_calls d)) K').
  { repeat split.
    - intros <-. apply NV. now left.
    - intros E. apply NV. right. now left.
    - intros ch0 r0 t0 A0 T0 E. apply NV. apply in_or_app. right. apply in_or_app. left. rewrite <- E. now apply (Hs 0%nat). }
  assert (TC0 : Forall typed_call (calls_to 0 (other_calls d))) by now apply calls_to_forall.
  rewrite C0 in TC0, UK, U.
  destruct (session_world _ _ _ _ _ _ _ _ _ _ _ _ _ _ _ _ K' F HLE L (M 0%nat) TC0 C T HK' HF UK NK U)
    as (P' & r' & M' & E2 & TR & C' & R1 & R2 & SB & H1 & H2 & H3).
  exists P', (e_session_key r'). split; [exact M'|].
  destruct (pry_world cfg P P' ps sk s r' HLE M TC M' SB R1 R2 TR) as (M1 & SF & ST & ED); fold d.
  - intros i k m X A. apply H1.
    + intros ->. apply NV. apply in_or_app. right. apply in_or_app. left. apply (Ha i K' m); [apply X|exact A].
    + intros [-> ->]. exact (OH i X A).
  - intros i k n X A. apply H2. intros ->. exact (OR i n X A).
  - intros k m I. apply H1.
    + intros ->. apply NV. apply in_or_app. right. apply in_or_app. right. apply in_map_iff. now exists (K', m).
    + intros [-> ->]. now apply NH.
  - intros k n I. apply H2. intros ->. now apply (NR n).
  - split; [exact M1|]. split; [exact E2|]. cbv zeta. split; [exact SF|]. split; [exact ST|]. rewrite ED. split; [exact C'|exact H3].
Qed.

(** ** C127 *)
(** Who has not hashed NTProofStr under the NTLMv2 key of the account, nor used RC4 under the
    session base key, knows next to nothing about the session key of a client of levels 3 to 5,
    though they call all the other clients there are, of this account or of others, if these
    did not do that either: of all 16 bytes each may be the key, but for at most two more than
    four times the calls and the hashes they made.  In some world all happened to them the
    same and these 16 bytes are the key. *)
Lemma C127_open_lem : forall cfg P ps sk s ch t b K, host_le cfg = true -> 3 <= pe_level (ps 0%nat) ->
  (forall i, person_made cfg P (ps i)) ->
  let k2 := key_of P (ps 0%nat) in
  let d := pry cfg P (fun i => pe_client (ps i)) sk s [] [] [] in
  let proof := proof_of cfg P k2 ch (f_draws d) t in
  let base := base_key_of cfg P k2 ch (f_draws d) t in
  Forall typed_call (map snd (other_calls d)) ->
  concludes cfg P (pe_client (ps 0%nat)) (calls_to 0 (f_calls d)) ch (f_draws d) b K -> response_time ch (f_draws d) = Some t ->
  NTOWFv1 P (pe_password (ps 0%nat)) <> k2 ->
  unrepeated cfg P k2 (calls_to 0 (other_calls d)) ch (f_draws d) t ->
  (forall i, others d i -> ~ person_asks cfg P (ps i) (calls_to i (other_calls d)) k2 proof) ->
  (forall i n, others d i -> ~ person_enciphers cfg P (ps i) (calls_to i (other_calls d)) base n) ->
  ~ In (k2, proof) (f_macs d) -> (forall n, ~ In (base, n) (f_streams d)) ->
  exists excluded, (length excluded <= 4 * length (other_calls d) + length (f_macs d) + 2)%nat
  /\ forall K', is_buffer 16 K' -> ~ In K' excluded ->
  exists P' sk', person_made cfg P' (ps 0%nat) /\ (forall i, others d i -> person_made cfg P' (ps i)) /\ key_of P' (ps 0%nat) = k2
    /\ let d' := pry cfg P' (fun i => pe_client (ps i)) sk' s [] [] [] in
       same_finding d d' /\ same_talk cfg P P' ps d d'
       /\ concludes cfg P' (pe_client (ps 0%nat)) (calls_to 0 (f_calls d)) ch (f_draws d') b K'.
Proof.
  intros cfg P ps sk s ch t b K HLE L M k2 d proof base TC C T NK U OH OR NH NR.
  destruct (open_world _ _ _ _ _ _ _ _ _ HLE L M TC C T NK U OH OR NH NR) as (l & Ll & H). exists l. split; [exact Ll|].
  intros K' HK' NV. destruct (H K' (fun m => p_hmac_md5 P K' m) HK' NV) as (P' & sk' & M' & M1 & E2 & SF & ST & C' & _).
  { intros m. apply hmac_buffer, (M 0%nat). }
  exists P', sk'. split; [exact M'|]. split; [exact M1|]. split; [exact E2|]. cbv zeta. split; [exact SF|]. split; [exact ST|exact C'].
Qed.
(** So they do not know it: in some world it is not what they say. *)
Lemma C127_nobody_lem : forall cfg P ps sk s ch t b K, host_le cfg = true -> 3 <= pe_level (ps 0%nat) ->
  (forall i, person_made cfg P (ps i)) ->
  let k2 := key_of P (ps 0%nat) in
  let d := pry cfg P (fun i => pe_client (ps i)) sk s [] [] [] in
  let proof := proof_of cfg P k2 ch (f_draws d) t in
  let base := base_key_of cfg P k2 ch (f_draws d) t in
  Forall typed_call (map snd (other_calls d)) ->
  concludes cfg P (pe_client (ps 0%nat)) (calls_to 0 (f_calls d)) ch (f_draws d) b K -> response_time ch (f_draws d) = Some t ->
  NTOWFv1 P (pe_password (ps 0%nat)) <> k2 ->
  unrepeated cfg P k2 (calls_to 0 (other_calls d)) ch (f_draws d) t ->
  (forall i, others d i -> ~ person_asks cfg P (ps i) (calls_to i (other_calls d)) k2 proof) ->
  (forall i n, others d i -> ~ person_enciphers cfg P (ps i) (calls_to i (other_calls d)) base n) ->
  ~ In (k2, proof) (f_macs d) -> (forall n, ~ In (base, n) (f_streams d)) ->
  N.of_nat (4 * length (other_calls d) + length (f_macs d)) < 2 ^ 128 - 3 ->
  exists P' sk' K', person_made cfg P' (ps 0%nat) /\ (forall i, others d i -> person_made cfg P' (ps i)) /\ key_of P' (ps 0%nat) = k2
    /\ let d' := pry cfg P' (fun i => pe_client (ps i)) sk' s [] [] [] in
       same_finding d d' /\ same_talk cfg P P' ps d d'
       /\ concludes cfg P' (pe_client (ps 0%nat)) (calls_to 0 (f_calls d)) ch (f_draws d') b K' /\ K' <> f_claim d'.
Proof.
  intros cfg P ps sk s ch t b K HLE L M k2 d proof base TC C T NK U OH OR NH NR SZ.
  destruct (C127_open_lem _ _ _ _ _ _ _ _ _ HLE L M TC C T NK U OH OR NH NR) as (l & Ll & H). fold d in Ll, H.
  destruct (fresh_key (f_claim d :: l)) as (K' & HK' & NV). { cbn [length]. lia. }
  destruct (H K' HK') as (P' & sk' & M' & M1 & E2 & SF & ST & C'). { intros I. apply NV. now right. }
  exists P', sk', K'. split; [exact M'|]. split; [exact M1|]. split; [exact E2|]. cbv zeta. split; [exact SF|]. split; [exact ST|]. split; [exact C'|].
  destruct SF as (_ & _ & _ & _ & -> & _). intros E. apply NV. now left.
Qed.
(** The same for levels 0 to 2, for who has not hashed what gave the key under which a session
    key is sent, and not used RC4 under it: every 16 bytes may be the key. *)
Lemma C127_nobody_old_lem : forall cfg P ps sk s ch b K lm, host_le cfg = true -> pe_level (ps 0%nat) <= 2 ->
  (forall i, person_made cfg P (ps i)) -> lmowfv1 P (pe_password (ps 0%nat)) = Val lm ->
  let nt := NTOWFv1 P (pe_password (ps 0%nat)) in
  let d := pry cfg P (fun i => pe_client (ps i)) sk s [] [] [] in
  let key ch r := old_base_key P (pe_level (ps 0%nat)) nt lm ch r in
  let msg := old_key_message P (pe_level (ps 0%nat)) nt lm ch (f_draws d) in
  Forall typed_call (map snd (other_calls d)) ->
  concludes cfg P (pe_client (ps 0%nat)) (calls_to 0 (f_calls d)) ch (f_draws d) b K ->
  p_md4 P nt <> nt ->
  (forall ch' r', answered (calls_to 0 (other_calls d)) ch' r' -> key ch' r' <> key ch (f_draws d)) ->
  (forall i, others d i -> ~ person_asks cfg P (ps i) (calls_to i (other_calls d)) (p_md4 P nt) msg) ->
  (forall i n, others d i -> ~ person_enciphers cfg P (ps i) (calls_to i (other_calls d)) (key ch (f_draws d)) n) ->
  ~ In (p_md4 P nt, msg) (f_macs d) -> (forall n, ~ In (key ch (f_draws d), n) (f_streams d)) ->
  forall K', is_buffer 16 K' ->
  exists P' sk', person_made cfg P' (ps 0%nat) /\ (forall i, others d i -> person_made cfg P' (ps i))
    /\ let d' := pry cfg P' (fun i => pe_client (ps i)) sk' s [] [] [] in
       same_finding d d' /\ same_talk cfg P P' ps d d'
       /\ concludes cfg P' (pe_client (ps 0%nat)) (calls_to 0 (f_calls d)) ch (f_draws d') b K'.
Proof.
  intros cfg P ps sk s ch b K lm HLE L M HL nt d key msg TC C NK U OH OR NH NR K' HK'.
  assert (C0 : calls_to 0 (other_calls d) = calls_to 0 (f_calls d) ++ calls_to 0 (f_after d)) by apply calls_to_app.
  assert (TC0 : Forall typed_call (calls_to 0 (other_calls d))) by now apply calls_to_forall.
  rewrite C0 in TC0, U.
  destruct (C121_session_key_old_lem _ _ _ _ _ _ _ _ _ _ _ _ _ _ _ K' _ HLE L (M 0%nat) HL TC0 C HK' NK U)
    as (P' & r' & M' & TR & C' & R1 & R2 & SB & H).
  assert (HH : forall k m, ~ (k = p_md4 P nt /\ m = msg) -> p_hmac_md5 P' k m = p_hmac_md5 P k m).
  { intros k m X. destruct (key_exchange (ch_flags ch)); destruct H as [H1 H2]; [now rewrite H1|]. now apply H2. }
  assert (HR : forall k n, k <> key ch (f_draws d) -> p_rc4_stream P' k n = p_rc4_stream P k n).
  { intros k n X. destruct (key_exchange (ch_flags ch)); destruct H as [H1 H2]; [now apply H2|now rewrite H1]. }
  exists P', (e_session_key r'). split; [exact M'|].
  destruct (pry_world cfg P P' ps sk s r' HLE M TC M' SB R1 R2 TR) as (M1 & SF & ST & ED); fold d.
  - intros i k m X A. apply HH. intros [-> ->]. exact (OH i X A).
  - intros i k n X A. apply HR. intros ->. exact (OR i n X A).
  - intros k m I. apply HH. intros [-> ->]. now apply NH.
  - intros k n I. apply HR. intros ->. now apply (NR n).
  - split; [exact M1|]. cbv zeta. split; [exact SF|]. split; [exact ST|]. rewrite ED. exact C'.
Qed.
(** Who has the NTLMv2 key of the account works the session key out from the reply. *)
Lemma C127_work_out_lem : forall cfg P e level user dom pw target cs h ch r b K calls after macs streams, host_le cfg = true -> 3 <= level ->
  made cfg P e level user dom pw target (cs 0%nat) -> concludes cfg P (cs 0%nat) h ch r b K ->
  f_claim (think cfg P cs (work_out (NTOWFv2 P pw user dom) (ch_server_challenge ch) (key_exchange (ch_flags ch)) (OutBytes b)) calls r after macs streams) = K.
Proof.
  intros cfg P e level user dom pw target cs h ch r b K calls after macs streams HLE L M C.
  destruct (C36_nt_hashes_lem cfg P pw user dom HLE) as [_ N2].
  pose proof (concludes_replies _ _ _ _ _ _ _ _ _ _ _ _ _ _ M C) as RP.
  destruct (replies_workstation _ _ _ _ _ _ _ _ _ _ RP) as [ws WN].
  destruct (replies_v2 _ _ _ _ _ _ _ _ _ _ _ RP L WN) as (HP & _ & Hr & _ & _ & t & T & _ & V & F & Eb).
  destruct (v2_by_offset _ _ _ _ _ _ _ _ _ _ V F) as (_ & H2 & _ & _ & _ & H6 & _). rewrite <- Eb in H2, H6.
  pose proof (concludes_v2 _ _ _ _ _ _ _ _ _ _ _ _ _ _ _ M L T C) as EK. rewrite N2 in *.
  set (k2 := NTOWFv2 P pw user dom) in *. unfold work_out. cbn [think]. rewrite H2.
  fold (v2_nt_proof P k2 (ch_server_challenge ch) (v2_temp cfg t (e_client_challenge r) (ch_target_infos ch))).
  fold (proof_of cfg P k2 ch r t). change (p_hmac_md5 P k2 (proof_of cfg P k2 ch r t)) with (v2_kek cfg P k2 ch r t).
  rewrite EK. unfold exported, encrypted in *. destruct (key_exchange (ch_flags ch)); [|reflexivity].
  cbn [think f_claim]. rewrite H6.
  assert (L16 : length (RC4K P (v2_kek cfg P k2 ch r t) (e_session_key r)) = 16%nat) by (apply RC4K_buffer; [exact HP|apply Hr]).
  rewrite <- L16 at 1. change (RC4K P (v2_kek cfg P k2 ch r t) (RC4K P (v2_kek cfg P k2 ch r t) (e_session_key r)) = e_session_key r).
  now apply RC4K_involutive.
Qed.
Lemma second_answered ch r : answered (no_reply ++ second) ch r -> ch = other_challenge /\ r = other_draws.
Proof.
  intros A. change (answered (((no_reply ++ [OpNegociate]) ++ [OpRecvChallenge other_challenge]) ++ [OpAuthenticate other_draws]) ch r) in A.
  rewrite !answered_snoc, !accepts_snoc in A. pose proof (none_answered ch r).
  decompose [or and] A; clear A; try contradiction; try discriminate;
    repeat match goal with X : OpAuthenticate _ = OpAuthenticate _ |- _ => injection X as X end; subst; try contradiction; now split.
Qed.
Lemma second_typed : Forall typed_call (no_reply ++ second).
Proof.
  repeat constructor; try exact I; try exact sealed_valid; closed_valid.
Qed.
Lemma told_answered ch r : answered told_second ch r -> ch = other_challenge /\ r = other_draws.
Proof.
  intros A. unfold told_second in A. change (answered ((([] ++ [OpNegociate]) ++ [OpRecvChallenge other_challenge]) ++ [OpAuthenticate other_draws]) ch r) in A.
  rewrite !answered_snoc, !accepts_snoc in A.
  assert (N : ~ answered [] ch r). { intros ([|? ?] & ? & E & _); discriminate E. }
  pose proof (not_accepts_nil ch).
  decompose [or and] A; clear A; try contradiction; try discriminate;
    repeat match goal with X : OpAuthenticate _ = OpAuthenticate _ |- _ => injection X as X end; subst; try contradiction; now split.
Qed.
(** Somebody curious and the two clients they serve, whatever they say at last. *)
Lemma curious_facts say :
  let P := mixing_prims in
  let ps := pair_of_clients in
  let d := pry cfg_debug P (fun i => pe_client (ps i)) (e_session_key sample_entropy) (curious_then say) [] [] [] in
  let k2 := key_of P (ps 0%nat) in
  (forall i, person_made cfg_debug P (ps i))
  /\ NTOWFv1 P (pe_password (ps 0%nat)) <> k2
  /\ calls_to 0 (f_calls d) = no_reply /\ f_draws d = sample_entropy /\ calls_to 0 (f_after d) = second
  /\ calls_to 1 (other_calls d) = told_second /\ (forall i, others d i -> i = 1%nat)
  /\ Forall typed_call (map snd (other_calls d))
  /\ concludes cfg_debug P (pe_client (ps 0%nat)) (calls_to 0 (f_calls d)) sealed_challenge (f_draws d) (mixed_reply no_reply) (mixed_key no_reply)
  /\ (exists t, response_time sealed_challenge (f_draws d) = Some t
       /\ let proof := proof_of cfg_debug P k2 sealed_challenge (f_draws d) t in
          let base := base_key_of cfg_debug P k2 sealed_challenge (f_draws d) t in
          unrepeated cfg_debug P k2 (calls_to 0 (other_calls d)) sealed_challenge (f_draws d) t
          /\ (forall i, others d i -> ~ person_asks cfg_debug P (ps i) (calls_to i (other_calls d)) k2 proof)
          /\ (forall i n, others d i -> ~ person_enciphers cfg_debug P (ps i) (calls_to i (other_calls d)) base n)
          /\ ~ In (k2, proof) (f_macs d) /\ forall n, ~ In (base, n) (f_streams d))
  /\ length (f_macs d) = 2%nat /\ length (f_streams d) = 1%nat.
Proof.
  cbv zeta. set (d := pry _ _ _ _ _ _ _ _).
  assert (E1 : calls_to 0 (f_calls d) = no_reply) by (vm_compute; reflexivity). assert (E2 : f_draws d = sample_entropy) by (vm_compute; reflexivity).
  assert (E3 : calls_to 0 (f_after d) = second) by (vm_compute; reflexivity).
  assert (E4 : calls_to 1 (other_calls d) = told_second) by (vm_compute; reflexivity).
  assert (E5 : calls_to 0 (other_calls d) = no_reply ++ second) by (vm_compute; reflexivity).
  assert (E6 : map snd (other_calls d) = [OpNegociate; OpNegociate; OpRecvChallenge other_challenge; OpRecvChallenge sealed_challenge;
    OpNegociate; OpAuthenticate other_draws; OpRecvChallenge other_challenge; OpAuthenticate other_draws]) by (vm_compute; reflexivity).
  assert (E7 : forall i, others d i -> i = 1%nat).
  { intros i [N X]. apply called_in in X. replace (map fst (other_calls d)) with [0%nat; 1%nat; 1%nat; 0%nat; 0%nat; 1%nat; 0%nat; 0%nat] in X by (vm_compute; reflexivity).
    cbn [In] in X. lia. }
  rewrite E1, E2, E3, E5.
  destruct C121_ex_lem as (_ & NK & H & _). destruct (H no_reply sealed_challenge) as (_ & C & _ & _ & _ & t & RT & _); [now left|].
  split. { intros i. split; [exact mixing_ok|]. repeat (split; [closed_valid|]). destruct i; vm_compute; reflexivity. }
  split; [exact NK|]. do 3 (split; [reflexivity|]). split; [exact E4|]. split; [exact E7|].
  split. { rewrite E6. pose proof second_typed as X. rewrite Forall_forall in *. intros o I. apply X. cbn [In no_reply second app] in *. intuition auto. }
  split; [exact C|].
  split.
  { exists t. split; [exact RT|]. vm_compute in RT. injection RT as <-. split; [|split; [|split; [|split]]].
    - split; [vm_compute; discriminate|]. intros ch r t A E. apply second_answered in A as [-> ->].
      vm_compute in E. injection E as <-. split; [|split]; vm_compute; discriminate.
    - intros i X. apply E7 in X. subst i. rewrite E4. intros [[X _]|(ch & r & A & X)]; [vm_compute in X; discriminate X|].
      apply told_answered in A as [-> ->]. destruct X as [[X _]|(_ & t & T & X)]; [vm_compute in X; now destruct X|].
      vm_compute in T. injection T as <-. destruct X as [[_ [X|[X|X]]]|[X _]]; vm_compute in X; discriminate X.
    - intros i n X. apply E7 in X. subst i. rewrite E4. intros (_ & ch & r & A & S & _). apply told_answered in A as [-> _]. discriminate S.
    - vm_compute. intros [X|[X|[]]]; discriminate X.
    - intros n I. vm_compute in I. destruct I as [X|[]]. discriminate X. }
  split; vm_compute; reflexivity.
Qed.
(** Somebody curious, and the two clients they serve. *)
Example C127_ex_lem :
  let P := mixing_prims in
  let ps := pair_of_clients in
  let d := pry cfg_debug P (fun i => pe_client (ps i)) (e_session_key sample_entropy) curious [] [] [] in
  let k2 := key_of P (ps 0%nat) in
  (forall i, person_made cfg_debug P (ps i))
  /\ NTOWFv1 P (pe_password (ps 0%nat)) <> k2
  /\ calls_to 0 (f_calls d) = no_reply /\ f_draws d = sample_entropy /\ calls_to 0 (f_after d) = second
  /\ calls_to 1 (other_calls d) = told_second /\ (forall i, others d i -> i = 1%nat)
  /\ Forall typed_call (map snd (other_calls d))
  /\ concludes cfg_debug P (pe_client (ps 0%nat)) (calls_to 0 (f_calls d)) sealed_challenge (f_draws d) (mixed_reply no_reply) (mixed_key no_reply)
  /\ (exists t, response_time sealed_challenge (f_draws d) = Some t
       /\ let proof := proof_of cfg_debug P k2 sealed_challenge (f_draws d) t in
          let base := base_key_of cfg_debug P k2 sealed_challenge (f_draws d) t in
          unrepeated cfg_debug P k2 (calls_to 0 (other_calls d)) sealed_challenge (f_draws d) t
          /\ (forall i, others d i -> ~ person_asks cfg_debug P (ps i) (calls_to i (other_calls d)) k2 proof)
          /\ (forall i n, others d i -> ~ person_enciphers cfg_debug P (ps i) (calls_to i (other_calls d)) base n)
          /\ ~ In (k2, proof) (f_macs d) /\ forall n, ~ In (base, n) (f_streams d))
  /\ length (f_macs d) = 2%nat /\ length (f_streams d) = 1%nat /\ length (f_claim d) = 16%nat.
Proof.
  cbv zeta. destruct (curious_facts (fun _ _ z => z)) as (H1 & H2 & H3 & H4 & H5 & H6 & H7 & H8 & H9 & H10 & H11 & H12).
  fold curious in *. repeat (split; [assumption|]). vm_compute. reflexivity.
Qed.
(** The same at levels 1 and 2. *)
Example C127_ex_old_lem :
  let P := moving_prims in
  let ps := pair_of_old_clients in
  let d := pry cfg_debug P (fun i => pe_client (ps i)) (e_session_key sample_entropy) curious [] [] [] in
  let nt := NTOWFv1 P (pe_password (ps 0%nat)) in
  (forall i, person_made cfg_debug P (ps i))
  /\ p_md4 P nt <> nt
  /\ calls_to 0 (f_calls d) = no_reply /\ f_draws d = sample_entropy /\ calls_to 0 (f_after d) = second
  /\ calls_to 1 (other_calls d) = told_second /\ (forall i, others d i -> i = 1%nat)
  /\ Forall typed_call (map snd (other_calls d))
  /\ concludes cfg_debug P (pe_client (ps 0%nat)) (calls_to 0 (f_calls d)) sealed_challenge (f_draws d) (moved_reply no_reply) (moved_key no_reply)
  /\ (exists lm, lmowfv1 P (pe_password (ps 0%nat)) = Val lm
       /\ let key ch r := old_base_key P (pe_level (ps 0%nat)) nt lm ch r in
          let msg := old_key_message P (pe_level (ps 0%nat)) nt lm sealed_challenge (f_draws d) in
          (forall ch' r', answered (calls_to 0 (other_calls d)) ch' r' -> key ch' r' <> key sealed_challenge (f_draws d))
          /\ (forall i, others d i -> ~ person_asks cfg_debug P (ps i) (calls_to i (other_calls d)) (p_md4 P nt) msg)
          /\ (forall i n, others d i -> ~ person_enciphers cfg_debug P (ps i) (calls_to i (other_calls d)) (key sealed_challenge (f_draws d)) n)
          /\ ~ In (p_md4 P nt, msg) (f_macs d) /\ forall n, ~ In (key sealed_challenge (f_draws d), n) (f_streams d))
  /\ length (f_macs d) = 2%nat /\ length (f_streams d) = 1%nat /\ length (f_claim d) = 16%nat.
Proof.
  cbv zeta. set (d := pry _ _ _ _ _ _ _ _).
  assert (E1 : calls_to 0 (f_calls d) = no_reply) by (vm_compute; reflexivity). assert (E2 : f_draws d = sample_entropy) by (vm_compute; reflexivity).
  assert (E3 : calls_to 0 (f_after d) = second) by (vm_compute; reflexivity).
  assert (E4 : calls_to 1 (other_calls d) = told_second) by (vm_compute; reflexivity).
  assert (E5 : calls_to 0 (other_calls d) = no_reply ++ second) by (vm_compute; reflexivity).
  assert (E6 : map snd (other_calls d) = [OpNegociate; OpNegociate; OpRecvChallenge other_challenge; OpRecvChallenge sealed_challenge;
    OpNegociate; OpAuthenticate other_draws; OpRecvChallenge other_challenge; OpAuthenticate other_draws]) by (vm_compute; reflexivity).
  assert (E7 : forall i, others d i -> i = 1%nat).
  { intros i [N X]. apply called_in in X. replace (map fst (other_calls d)) with [0%nat; 1%nat; 1%nat; 0%nat; 0%nat; 1%nat; 0%nat; 0%nat] in X by (vm_compute; reflexivity).
    cbn [In] in X. lia. }
  rewrite E1, E2, E3, E5.
  destruct C121_ex_old_lem as (_ & NK & (lm & HL & H) & _). destruct (H no_reply sealed_challenge) as (_ & C & _); [now left|].
  split. { intros i. split; [exact moving_ok|]. repeat (split; [closed_valid|]). destruct i; vm_compute; reflexivity. }
  split; [exact NK|]. do 3 (split; [reflexivity|]). split; [exact E4|]. split; [exact E7|].
  split. { rewrite E6. pose proof second_typed as X. rewrite Forall_forall in *. intros o I. apply X. cbn [In no_reply second app] in *. intuition auto. }
  split; [exact C|].
  split.
  { exists lm. split; [exact HL|]. vm_compute in HL. injection HL as <-. split; [|split; [|split; [|split]]].
    - intros ch r A. apply second_answered in A as [-> ->]. vm_compute. discriminate.
    - intros i X. apply E7 in X. subst i. rewrite E4. intros [[X _]|(ch & r & A & X)]; [vm_compute in X; discriminate X|].
      apply told_answered in A as [-> ->]. destruct X as [(_ & _ & x & _ & X)|[X _]]; vm_compute in X; [discriminate X|now destruct X].
    - intros i n X. apply E7 in X. subst i. rewrite E4. intros (_ & ch & r & A & S & _). apply told_answered in A as [-> _]. discriminate S.
    - vm_compute. intros [X|[X|[]]]; discriminate X.
    - intros n I. vm_compute in I. destruct I as [X|[]]. discriminate X. }
  split; [vm_compute; reflexivity|]. split; vm_compute; reflexivity.
Qed.
