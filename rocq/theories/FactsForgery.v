(** Nobody logs on without the key or a client of the account. *)
From Coq Require Import ZifyBool ZifyNat ZifyN.
From Verif Require Import Base Nom Unicode Wire Structures Prims Messages Crypto Client Spec SpecBuild SpecCrypto SpecClient SpecServer SpecLmv2 Lib Encode Decode RoundTrip Parse Samples FactsEncode FactsDecode FactsBuild DesKey RealPrims FactsCrypto SamplesClient History Reply FactsClient SpecTrace Trace FactsTrace SamplesLabour SamplesLmv2 SamplesTiming FactsServer FactsLmv2 FactsTiming SamplesPlaces FactsPlaces SpecQueries SamplesQueries FactsQueries SpecForgery SamplesForgery.

Ltac Zify.zify_post_hook ::= Z.div_mod_to_equations.

Lemma calls_to_app i l l' : calls_to i (l ++ l') = calls_to i l ++ calls_to i l'.
Proof.
  induction l as [|[j o] l IH]; [reflexivity|]. cbn [app calls_to]. destruct (Nat.eqb i j); [|exact IH].
  rewrite IH. reflexivity.
Qed.
Lemma calls_to_typed i l : Forall (fun x => typed_call (snd x)) l -> Forall typed_call (calls_to i l).
Proof.
  induction 1 as [|[j o] l H _ IH]; [constructor|]. cbn [calls_to]. destruct (Nat.eqb i j); [now constructor|exact IH].
Qed.
Lemma transcript_len cfg P h : forall c, length (transcript cfg P c h) = length h.
Proof. induction h as [|o h IH]; intros c; [reflexivity|]. cbn [transcript length]. now rewrite IH. Qed.
Lemma transcript_answer cfg P P' c h o h' :
  transcript cfg P' c (h ++ o :: h') = transcript cfg P c (h ++ o :: h') ->
  answer cfg P' c h o = answer cfg P c h o.
Proof.
  intros E. rewrite !transcript_app in E.
  apply (f_equal (skipn (length h))) in E.
  rewrite !skipn_app, !transcript_len, !Nat.sub_diag in E.
  rewrite (skipn_all2 (transcript cfg P' c h)), (skipn_all2 (transcript cfg P c h)) in E by (rewrite transcript_len; lia).
  cbn [transcript app skipn] in E. now injection E as E _.
Qed.

(** A game only adds calls and points. *)
Lemma play_grows cfg P cs s : forall l hs l' hs' b, play cfg P cs s l hs = (l', hs', b) ->
  (exists x, l' = l ++ x) /\ (exists y, hs' = hs ++ y).
Proof.
  induction s as [b0|i o f IH|k m f IH]; intros l hs l' hs' b E; cbn [play] in E.
  - injection E as <- <- _. split; exists []; now rewrite app_nil_r.
  - apply IH in E as [[x ->] Y]. split; [|exact Y]. exists ([(i, o)] ++ x). now rewrite app_assoc.
  - apply IH in E as [X [y ->]]. split; [exact X|]. exists ([(k, m)] ++ y). now rewrite app_assoc.
Qed.
(** Two worlds that agree on the calls and the points of the game see the same game. *)
Lemma play_agree cfg P H cs s : forall l hs l' hs' b, play cfg P cs s l hs = (l', hs', b) ->
  (forall i, transcript cfg (with_hmac P H) (cs i) (calls_to i l') = transcript cfg P (cs i) (calls_to i l')) ->
  (forall k m, In (k, m) hs' -> H k m = p_hmac_md5 P k m) ->
  play cfg (with_hmac P H) cs s l hs = (l', hs', b).
Proof.
  induction s as [b0|i o f IH|k m f IH]; intros l hs l' hs' b E T Q; cbn [play] in *.
  - exact E.
  - destruct (play_grows _ _ _ _ _ _ _ _ _ E) as [[x X] _].
    rewrite (transcript_answer cfg P (with_hmac P H) (cs i) (calls_to i l) o (calls_to i x)); [now apply IH|].
    specialize (T i). rewrite X, !calls_to_app in T. cbn [calls_to] in T. rewrite Nat.eqb_refl, <- app_assoc in T. exact T.
  - destruct (play_grows _ _ _ _ _ _ _ _ _ E) as [_ [y Y]].
    change (p_hmac_md5 (with_hmac P H) k m) with (H k m). rewrite Q; [now apply IH|].
    rewrite Y, <- app_assoc. apply in_or_app. right. now left.
Qed.

Lemma other_value (x y : bytes) : exists v, is_buffer 16 v /\ v <> x /\ v <> y.
Proof.
  assert (B : forall n, n < 256 -> is_buffer 16 (repeat n 16)).
  { intros n Hn. split; [apply repeat_length|]. apply Forall_forall. intros z Z. apply repeat_spec in Z. now subst z. }
  destruct (list_eq_dec N.eq_dec (repeat 0 16) x) as [<-|N0]; [|destruct (list_eq_dec N.eq_dec (repeat 0 16) y) as [<-|N0']].
  - destruct (list_eq_dec N.eq_dec (repeat 1 16) y) as [<-|N1].
    + exists (repeat 2 16). split; [apply B; lia|]. split; discriminate.
    + exists (repeat 1 16). split; [apply B; lia|]. split; [discriminate|exact N1].
  - destruct (list_eq_dec N.eq_dec (repeat 1 16) x) as [<-|N1].
    + exists (repeat 2 16). split; [apply B; lia|]. split; discriminate.
    + exists (repeat 1 16). split; [apply B; lia|]. split; [exact N1|discriminate].
  - exists (repeat 0 16). split; [apply B; lia|]. now split.
Qed.
(** HMAC-MD5 with another value under [k2] for all that begins with [sc]. *)
Definition changed_under (P : prims) (k2 sc v k m : bytes) : bytes :=
  if list_eq_dec N.eq_dec k k2 then if list_eq_dec N.eq_dec (firstn 8 m) sc then v else p_hmac_md5 P k m
  else p_hmac_md5 P k m.
Lemma changed_there P k2 sc v x : length sc = 8%nat -> changed_under P k2 sc v k2 (sc ++ x) = v.
Proof.
  intros L. unfold changed_under. destruct (list_eq_dec _ k2 k2) as [_|N]; [|now destruct N].
  destruct (list_eq_dec _ _ sc) as [_|N]; [reflexivity|]. destruct N.
  rewrite firstn_app, L, Nat.sub_diag, firstn_O, app_nil_r. apply firstn_all2. lia.
Qed.
Lemma changed_else P k2 sc v k m : ~ (k = k2 /\ firstn 8 m = sc) -> changed_under P k2 sc v k m = p_hmac_md5 P k m.
Proof.
  intros N. unfold changed_under. destruct (list_eq_dec _ k k2); [|reflexivity].
  destruct (list_eq_dec _ _ sc); [|reflexivity]. destruct N. now split.
Qed.

(** A world in which all that begins with the server's challenge gives [v] under the key. *)
Lemma world_v2 cfg P who calls hashed b db w a v : host_le cfg = true -> prims_ok P ->
  (forall i, person_made cfg P (who i)) ->
  Forall (fun x => typed_call (snd x)) calls ->
  is_buffer 8 (sub w 24 8) ->
  (forall i ch r, answered (calls_to i calls) ch r -> ch_server_challenge ch <> sub w 24 8) ->
  db (field_data b 36) (field_data b 28) = Some a ->
  (forall m, In (NTOWFv2 P (acc_password a) (acc_user a) (acc_domain a), m) hashed -> firstn 8 m <> sub w 24 8) ->
  NTOWFv1 P (acc_password a) <> NTOWFv2 P (acc_password a) (acc_user a) (acc_domain a) ->
  (forall i, no_luck cfg P (NTOWFv2 P (acc_password a) (acc_user a) (acc_domain a)) (sub w 24 8) (who i) (calls_to i calls)) ->
  is_buffer 16 v ->
  exists H, prims_ok (with_hmac P H)
    /\ (forall i, person_made cfg (with_hmac P H) (who i)
         /\ transcript cfg (with_hmac P H) (pe_client (who i)) (calls_to i calls) = transcript cfg P (pe_client (who i)) (calls_to i calls))
    /\ (forall k m, In (k, m) hashed -> H k m = p_hmac_md5 P k m)
    /\ NTOWFv2 (with_hmac P H) (acc_password a) (acc_user a) (acc_domain a) = NTOWFv2 P (acc_password a) (acc_user a) (acc_domain a)
    /\ (forall m, firstn 8 m = sub w 24 8 -> H (NTOWFv2 P (acc_password a) (acc_user a) (acc_domain a)) m = v)
    /\ (v <> sub (field_data b 12) 0 16 -> v <> firstn 16 (field_data b 20) -> takes_v2 (with_hmac P H) db w b = false).
Proof.
  intros HLE HP M T [Hsc _] NA A NH N1 NL Hv.
  set (k2 := NTOWFv2 P (acc_password a) (acc_user a) (acc_domain a)) in *. set (sc := sub w 24 8) in *.
  set (H := changed_under P k2 sc v). exists H.
  assert (HP' : prims_ok (with_hmac P H)).
  { apply with_hmac_ok; [exact HP|]. intros k m. unfold H, changed_under.
    destruct (list_eq_dec _ k k2); [|now apply hmac_buffer]. destruct (list_eq_dec _ _ sc); [exact Hv|now apply hmac_buffer]. }
  assert (Q : forall i, person_made cfg (with_hmac P H) (who i)
      /\ transcript cfg (with_hmac P H) (pe_client (who i)) (calls_to i calls) = transcript cfg P (pe_client (who i)) (calls_to i calls)).
  { intros i. destruct (NL i) as [L1 L2]. apply C119_queries_lem; [exact HLE|apply M|now apply calls_to_typed|exact HP'|].
    intros k m [[-> ->]|(ch & r & B & Q)]; apply changed_else; intros [E1 E2]; [now apply L1|].
    assert (V : valid_challenge ch).
    { destruct B as (h1 & h2 & E & B). apply (calls_to_typed i) in T. rewrite E in T. apply Forall_app in T as [T _]. now apply accepts_typed in B. }
    destruct V as (_ & _ & [V _] & _).
    assert (PRE : forall y, firstn 8 (ch_server_challenge ch ++ y) <> sc).
    { intros y Y. apply (NA _ _ _ B). rewrite firstn_app, V, Nat.sub_diag, firstn_O, app_nil_r, firstn_all2 in Y by lia. exact Y. }
    destruct Q as [(_ & _ & x & _ & ->)|(_ & t & Ht & [[-> [ -> | [ -> | -> ]]]|[-> _]])]; try solve [now apply PRE in E2].
    - destruct (L2 _ _ _ B Ht) as [Z _]. rewrite E1 in E2. now apply Z.
    - now destruct (L2 _ _ _ B Ht) as [_ Z]. }
  assert (K : NTOWFv2 (with_hmac P H) (acc_password a) (acc_user a) (acc_domain a) = k2).
  { unfold k2 at 1. apply changed_else. intros [E _]. now apply N1. }
  split; [exact HP'|]. split; [exact Q|]. split.
  { intros k m I. apply changed_else. intros [-> E]. now apply (NH m). }
  split; [exact K|]. split.
  { intros m E. unfold H, changed_under. destruct (list_eq_dec _ k2 k2) as [_|X]; [|now destruct X].
    destruct (list_eq_dec _ (firstn 8 m) sc) as [_|X]; [reflexivity|now destruct X]. }
  intros V1 V2. unfold takes_v2, takes_lmv2, lmv2_right, server, server_v2. rewrite A, K. fold sc.
  change (v2_nt_proof (with_hmac P H) k2 sc (skipn 16 (field_data b 20))) with (H k2 (sc ++ skipn 16 (field_data b 20))).
  change (p_hmac_md5 (with_hmac P H)) with H. unfold H. rewrite !changed_there by exact Hsc.
  destruct (beq_bytes (sub b 0 8) NTLMSSP && (u32_at b 8 =? 3)); cbn [andb orb]; [|now rewrite andb_false_r].
  destruct (beq_bytes (sub (field_data b 12) 0 16) v) eqn:E1; [apply beq_bytes_eq in E1; now destruct V1|].
  rewrite andb_false_r. cbn [orb]. destruct (len (field_data b 20) =? 24); cbn [negb andb]; [reflexivity|].
  destruct (beq_bytes (firstn 16 (field_data b 20)) v) eqn:E2; [apply beq_bytes_eq in E2; now destruct V2|reflexivity].
Qed.

(** A world in which the server refuses [b]. *)
Lemma refused_v2 cfg P who calls hashed b db w a : host_le cfg = true -> prims_ok P ->
  (forall i, person_made cfg P (who i)) ->
  Forall (fun x => typed_call (snd x)) calls ->
  is_buffer 8 (sub w 24 8) ->
  (forall i ch r, answered (calls_to i calls) ch r -> ch_server_challenge ch <> sub w 24 8) ->
  db (field_data b 36) (field_data b 28) = Some a ->
  (forall m, In (NTOWFv2 P (acc_password a) (acc_user a) (acc_domain a), m) hashed -> firstn 8 m <> sub w 24 8) ->
  NTOWFv1 P (acc_password a) <> NTOWFv2 P (acc_password a) (acc_user a) (acc_domain a) ->
  (forall i, no_luck cfg P (NTOWFv2 P (acc_password a) (acc_user a) (acc_domain a)) (sub w 24 8) (who i) (calls_to i calls)) ->
  exists H, prims_ok (with_hmac P H)
    /\ (forall i, person_made cfg (with_hmac P H) (who i)
         /\ transcript cfg (with_hmac P H) (pe_client (who i)) (calls_to i calls) = transcript cfg P (pe_client (who i)) (calls_to i calls))
    /\ (forall k m, In (k, m) hashed -> H k m = p_hmac_md5 P k m)
    /\ NTOWFv2 (with_hmac P H) (acc_password a) (acc_user a) (acc_domain a) = NTOWFv2 P (acc_password a) (acc_user a) (acc_domain a)
    /\ takes_v2 (with_hmac P H) db w b = false.
Proof.
  intros HLE HP M T Hsc NA A NH N1 NL.
  destruct (other_value (sub (field_data b 12) 0 16) (firstn 16 (field_data b 20))) as (v & Hv & V1 & V2).
  destruct (world_v2 cfg P who calls hashed b db w a v HLE HP M T Hsc NA A NH N1 NL Hv) as (H & X1 & X2 & X3 & X4 & _ & X5).
  exists H. repeat (split; [assumption|]). now apply X5.
Qed.

(** ** C120 *)
(** Whatever somebody does who talks to clients (of this account or others, at any level) and
    hashes: if no client answered the server's challenge, and they did not hash a text that
    begins with it under the account's NTLMv2 key, then in some world all they were told is
    the same, they send the same message, and the server refuses it. *)
Lemma C120_no_forgery_lem : forall cfg P who s calls hashed b db w a, host_le cfg = true -> prims_ok P ->
  (forall i, person_made cfg P (who i)) ->
  play cfg P (fun i => pe_client (who i)) s [] [] = (calls, hashed, b) ->
  Forall (fun x => typed_call (snd x)) calls ->
  is_buffer 8 (sub w 24 8) ->
  (forall i ch r, answered (calls_to i calls) ch r -> ch_server_challenge ch <> sub w 24 8) ->
  db (field_data b 36) (field_data b 28) = Some a ->
  (forall m, In (NTOWFv2 P (acc_password a) (acc_user a) (acc_domain a), m) hashed -> firstn 8 m <> sub w 24 8) ->
  NTOWFv1 P (acc_password a) <> NTOWFv2 P (acc_password a) (acc_user a) (acc_domain a) ->
  (forall i, no_luck cfg P (NTOWFv2 P (acc_password a) (acc_user a) (acc_domain a)) (sub w 24 8) (who i) (calls_to i calls)) ->
  exists H, prims_ok (with_hmac P H)
    /\ (forall i, person_made cfg (with_hmac P H) (who i))
    /\ play cfg (with_hmac P H) (fun i => pe_client (who i)) s [] [] = (calls, hashed, b)
    /\ NTOWFv2 (with_hmac P H) (acc_password a) (acc_user a) (acc_domain a) = NTOWFv2 P (acc_password a) (acc_user a) (acc_domain a)
    /\ takes_v2 (with_hmac P H) db w b = false.
Proof.
  intros cfg P who s calls hashed b db w a HLE HP M G T Hsc NA A NH N1 NL.
  destruct (refused_v2 cfg P who calls hashed b db w a HLE HP M T Hsc NA A NH N1 NL) as (H & HP' & Q & E & K & R).
  exists H. split; [exact HP'|]. split; [intros i; apply Q|]. split; [|split; [exact K|exact R]].
  apply play_agree; [exact G|intros i; apply Q|exact E].
Qed.

(** There is such a world for every answer: for all 2^128 values that what begins with the
    server's challenge may have under the account's key, they are told the same and send the
    same, and for all but two of these values the server refuses the message. *)
Lemma C120_odds_lem : forall cfg P who s calls hashed b db w a, host_le cfg = true -> prims_ok P ->
  (forall i, person_made cfg P (who i)) ->
  play cfg P (fun i => pe_client (who i)) s [] [] = (calls, hashed, b) ->
  Forall (fun x => typed_call (snd x)) calls ->
  is_buffer 8 (sub w 24 8) ->
  (forall i ch r, answered (calls_to i calls) ch r -> ch_server_challenge ch <> sub w 24 8) ->
  db (field_data b 36) (field_data b 28) = Some a ->
  (forall m, In (NTOWFv2 P (acc_password a) (acc_user a) (acc_domain a), m) hashed -> firstn 8 m <> sub w 24 8) ->
  NTOWFv1 P (acc_password a) <> NTOWFv2 P (acc_password a) (acc_user a) (acc_domain a) ->
  (forall i, no_luck cfg P (NTOWFv2 P (acc_password a) (acc_user a) (acc_domain a)) (sub w 24 8) (who i) (calls_to i calls)) ->
  exists lucky, (length lucky <= 2)%nat
  /\ forall v, is_buffer 16 v ->
  exists H, prims_ok (with_hmac P H)
    /\ (forall i, person_made cfg (with_hmac P H) (who i))
    /\ play cfg (with_hmac P H) (fun i => pe_client (who i)) s [] [] = (calls, hashed, b)
    /\ NTOWFv2 (with_hmac P H) (acc_password a) (acc_user a) (acc_domain a) = NTOWFv2 P (acc_password a) (acc_user a) (acc_domain a)
    /\ (forall m, firstn 8 m = sub w 24 8 -> H (NTOWFv2 P (acc_password a) (acc_user a) (acc_domain a)) m = v)
    /\ (~ In v lucky -> takes_v2 (with_hmac P H) db w b = false).
Proof.
  intros cfg P who s calls hashed b db w a HLE HP M G T Hsc NA A NH N1 NL.
  exists [sub (field_data b 12) 0 16; firstn 16 (field_data b 20)]. split; [reflexivity|]. intros v Hv.
  destruct (world_v2 cfg P who calls hashed b db w a v HLE HP M T Hsc NA A NH N1 NL Hv) as (H & HP' & Q & E & K & W & R).
  exists H. split; [exact HP'|]. split; [intros i; apply Q|]. split; [apply play_agree; [exact G|intros i; apply Q|exact E]|].
  split; [exact K|]. split; [exact W|]. intros NI. apply R; intros ->; apply NI; cbn; auto.
Qed.
(** What was left out works.  A client of the account that is given the server's challenge
    answers it for whoever asks. *)
Lemma C120_relay_lem : forall cfg P who ch r b db w, host_le cfg = true -> 3 <= pe_level (who 0%nat) ->
  person_made cfg P (who 0%nat) -> valid_challenge ch -> is_entropy r ->
  ch_server_challenge ch = sub w 24 8 ->
  db (utf16le (pe_user (who 0%nat))) (utf16le (pe_domain (who 0%nat)))
    = Some (mkAccount (pe_user (who 0%nat)) (pe_domain (who 0%nat)) (pe_password (who 0%nat))) ->
  answer cfg P (pe_client (who 0%nat)) [OpNegociate; OpRecvChallenge ch] (OpAuthenticate r) = OutBytes b ->
  play cfg P (fun i => pe_client (who i)) (relay ch r) [] []
    = ([(0%nat, OpNegociate); (0%nat, OpRecvChallenge ch); (0%nat, OpAuthenticate r)], [], b)
  /\ takes_v2 P db w b = true.
Proof.
  intros cfg P who ch r b db w HLE L M Hc Hr E A B. split.
  - unfold relay. cbn [play calls_to app Nat.eqb]. now rewrite B.
  - unfold takes_v2. replace (takes_lmv2 P db w b) with true; [reflexivity|]. symmetry.
    apply (C112_accepted_lem cfg P (pe_env (who 0%nat)) (pe_level (who 0%nat)) (pe_user (who 0%nat)) (pe_domain (who 0%nat)) (pe_password (who 0%nat)) ch r);
      [exact L|exact HLE| |].
    + exists (pe_target (who 0%nat)), (pe_client (who 0%nat)), [OpNegociate; OpRecvChallenge ch].
      split; [exact M|]. split; [exact Hc|]. split; [exact Hr|]. split; [|exact B].
      exists [], [], []. repeat constructor.
    + eexists. split; [exact A|]. cbn [acc_user acc_domain acc_password]. now rewrite E.
Qed.
(** The NTLMv2 key is as good as the password: one HMAC is enough, with no client at all. *)
Lemma C120_key_lem : forall cfg P cs user dom cc db w a, prims_ok P ->
  len user < 65536 -> len dom < 65536 -> is_buffer 8 cc -> db user dom = Some a ->
  exists b, play cfg P cs (use_key (NTOWFv2 P (acc_password a) (acc_user a) (acc_domain a)) (sub w 24 8) cc user dom) [] []
      = ([], [(NTOWFv2 P (acc_password a) (acc_user a) (acc_domain a), sub w 24 8 ++ cc)], b)
    /\ takes_v2 P db w b = true.
Proof.
  intros cfg P cs user dom cc db w a HP Hu Hd [Hc _] A. eexists. split; [unfold use_key; cbn [play app]; reflexivity|].
  set (k2 := NTOWFv2 P (acc_password a) (acc_user a) (acc_domain a)). set (x := p_hmac_md5 P k2 (sub w 24 8 ++ cc)).
  assert (Hx : length x = 16%nat) by apply (ok_hmac_len P HP).
  assert (Lx : len (x ++ cc) = 24) by (unfold len; rewrite app_length; lia).
  set (lm := x ++ cc) in *. unfold takes_v2. replace (takes_lmv2 P db w (key_message user dom lm)) with true; [reflexivity|].
  symmetry.
  assert (HD : exists h, length h = 64%nat /\ key_message user dom lm = h ++ dom ++ user ++ lm
     /\ sub h 0 8 = NTLMSSP /\ u32_at h 8 = 3
     /\ field_len h 12 = 24 /\ field_off h 12 = 64 + len dom + len user
     /\ field_len h 28 = len dom /\ field_off h 28 = 64
     /\ field_len h 36 = len user /\ field_off h 36 = 64 + len dom).
  { eexists (NTLMSSP ++ le32 3 ++ (le16 (len lm) ++ le16 (len lm) ++ le32 (64 + len dom + len user)) ++ zeros 8
      ++ (le16 (len dom) ++ le16 (len dom) ++ le32 64) ++ (le16 (len user) ++ le16 (len user) ++ le32 (64 + len dom)) ++ zeros 8 ++ zeros 8 ++ zeros 4).
    rewrite Lx. split; [reflexivity|]. split; [unfold key_message; rewrite Lx, <- !app_assoc; reflexivity|].
    split; [reflexivity|]. split; [reflexivity|].
    assert (F16 : forall n, n < 65536 -> n mod 256 + 256 * (n / 256 mod 256) = n) by (intros; lia).
    assert (F32 : forall n, n < 4294967296 -> (n mod 256 + 256 * (n / 256 mod 256)) + 65536 * (n / 65536 mod 256 + 256 * (n / 16777216 mod 256)) = n) by (intros; lia).
    repeat split; unfold field_len, field_off, u32_at, u16_at;
      match goal with |- ?l = ?r => let l' := eval cbn -[N.div N.modulo N.add N.mul len] in l in change (l' = r) end;
      first [reflexivity|apply F16; lia|apply F32; lia]. }
  destruct HD as (h & Lh & -> & H1 & H2 & L1 & O1 & L2 & O2 & L3 & O3).
  assert (AT : forall i, i < 64 -> byte_at (h ++ dom ++ user ++ lm) i = byte_at h i) by (intros i Hi; unfold byte_at; apply app_nth1; lia).
  assert (FL : forall o, o < 56 -> field_len (h ++ dom ++ user ++ lm) o = field_len h o) by (intros o Ho; unfold field_len, u16_at; rewrite !AT by lia; reflexivity).
  assert (FO : forall o, o < 56 -> field_off (h ++ dom ++ user ++ lm) o = field_off h o) by (intros o Ho; unfold field_off, u32_at, u16_at; rewrite !AT by lia; reflexivity).
  assert (SK : forall y z n m, len y = n -> len z = m -> forall t, sub (y ++ z ++ t) n m = z).
  { intros y z n m Y Z t. unfold sub, len in *. rewrite skipn_app, skipn_all2 by lia.
    replace (N.to_nat n - length y)%nat with 0%nat by lia. rewrite skipn_O, app_nil_l, firstn_app.
    replace (N.to_nat m - length z)%nat with 0%nat by lia. rewrite firstn_O, app_nil_r. apply firstn_all2. lia. }
  unfold takes_lmv2, field_data. rewrite !FL, !FO, L1, O1, L2, O2, L3, O3 by lia.
  assert (E1 : sub (h ++ dom ++ user ++ lm) 0 8 = NTLMSSP).
  { rewrite <- H1. unfold sub. rewrite !skipn_O, firstn_app. replace (N.to_nat 8 - length h)%nat with 0%nat by lia. now rewrite firstn_O, app_nil_r. }
  assert (E2 : u32_at (h ++ dom ++ user ++ lm) 8 = 3) by (rewrite <- H2; unfold u32_at, u16_at; rewrite !AT by lia; reflexivity).
  rewrite E1, E2, beq_bytes_refl. cbn [andb N.eqb Pos.eqb].
  assert (LH : len h = 64) by (unfold len; lia).
  rewrite (SK h dom 64 (len dom) LH eq_refl). rewrite (app_assoc h dom), (SK (h ++ dom) user) by (rewrite ?len_app; lia).
  rewrite A. rewrite (app_assoc (h ++ dom) user), <- (app_nil_r lm), (SK ((h ++ dom) ++ user) lm) by (rewrite ?len_app; lia).
  unfold lmv2_right. rewrite Lx. change (24 =? 24) with true. cbn [andb].
  unfold lm. rewrite (sub_app_l x cc) by (unfold len; lia). rewrite (sub_app_r x cc) by (unfold len; lia).
  apply beq_bytes_refl.
Qed.

Lemma guess_answered i ch r : answered (calls_to i guess_calls) ch r -> (ch = sealed_challenge \/ ch = other_challenge) /\ r = sample_entropy.
Proof.
  assert (N : ~ answered [] ch r). { intros ([|? ?] & ? & E & _); discriminate E. }
  pose proof (not_accepts_nil ch) as N'.
  assert (ONE : forall ch', answered [OpNegociate; OpRecvChallenge ch'; OpAuthenticate sample_entropy] ch r -> ch = ch' /\ r = sample_entropy).
  { intros ch' A. change (answered ((([] ++ [OpNegociate]) ++ [OpRecvChallenge ch']) ++ [OpAuthenticate sample_entropy]) ch r) in A.
    rewrite !answered_snoc, !accepts_snoc in A.
    decompose [or and] A; clear A; try contradiction; try discriminate;
      repeat match goal with
        | H : OpAuthenticate _ = OpAuthenticate _ |- _ => injection H as H
        | H : OpRecvChallenge _ = OpRecvChallenge _ |- _ => injection H as H
        end; subst; auto; try (split; congruence). }
  intros A. unfold guess_calls in A. cbn [calls_to] in A. destruct (Nat.eqb i 0) eqn:E0.
  - apply Nat.eqb_eq in E0. subst i. cbn [Nat.eqb] in A. apply ONE in A. tauto.
  - destruct (Nat.eqb i 7); [apply ONE in A; tauto|contradiction].
Qed.
Example C120_ex_lem :
  (forall i, person_made cfg_debug mixing_prims (anybody i))
  /\ play cfg_debug mixing_prims (fun i => pe_client (anybody i)) guess [] [] = (guess_calls, guess_hashed, guess_sent)
  /\ Forall (fun x => typed_call (snd x)) guess_calls
  /\ answered (calls_to 0 guess_calls) sealed_challenge sample_entropy /\ answered (calls_to 7 guess_calls) other_challenge sample_entropy
  /\ is_buffer 8 (sub third_message 24 8)
  /\ (forall i ch r, answered (calls_to i guess_calls) ch r -> ch_server_challenge ch <> sub third_message 24 8)
  /\ one_account (field_data guess_sent 36) (field_data guess_sent 28) = Some (mkAccount str_User str_Domain str_Password)
  /\ (forall m, In (NTOWFv2 mixing_prims str_Password str_User str_Domain, m) guess_hashed -> firstn 8 m <> sub third_message 24 8)
  /\ NTOWFv1 mixing_prims str_Password <> NTOWFv2 mixing_prims str_Password str_User str_Domain
  /\ (forall i, no_luck cfg_debug mixing_prims (NTOWFv2 mixing_prims str_Password str_User str_Domain) (sub third_message 24 8)
        (anybody i) (calls_to i guess_calls))
  /\ field_data guess_sent 36 = utf16le str_User /\ len (field_data guess_sent 12) = 24
  /\ takes_v2 mixing_prims one_account third_message guess_sent = false
  /\ len relay_sent = 306 /\ takes_v2 mixing_prims one_account sealed_message relay_sent = true
  /\ takes_v2 mixing_prims one_account third_message relay_sent = false.
Proof.
  split. { intros i. split; [exact mixing_ok|]. repeat (split; [closed_valid|]). vm_compute. reflexivity. }
  split. { vm_compute. reflexivity. }
  split. { repeat constructor; try exact I; try exact sealed_valid; try exact sample_entropy_ok; closed_valid. }
  split. { exists [OpNegociate; OpRecvChallenge sealed_challenge], []. split; [reflexivity|]. exists [], [], []. repeat constructor. }
  split. { exists [OpNegociate; OpRecvChallenge other_challenge], []. split; [reflexivity|]. exists [], [], []. repeat constructor. }
  split. { closed_valid. }
  split. { intros i ch r A. apply guess_answered in A as [[ -> | -> ] _]; discriminate. }
  split. { reflexivity. }
  split. { intros m [E|[]]. vm_compute in E. discriminate E. }
  split. { vm_compute. discriminate. }
  split. { intros i. split; [vm_compute; discriminate|]. intros ch r t A E. apply guess_answered in A as [A ->].
    destruct A as [ -> | -> ]; vm_compute in E; injection E as <-; (split; [intros _|]; vm_compute; discriminate). }
  repeat split; vm_compute; reflexivity.
Qed.
