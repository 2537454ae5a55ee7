(** Facts about requests for more bytes and about the size of decoded messages. *)
From Coq Require Import ZifyBool ZifyNat ZifyN.
From Verif Require Import Base Nom Unicode Wire Structures Messages Spec SpecStream Lib Encode Decode RoundTrip Parse
  Samples FactsEncode FactsDecode.

Ltac Zify.zify_post_hook ::= Z.div_mod_to_equations.

(** ** Lists of AV pairs *)
Lemma missing_many0 cfg b n : is_bytes b -> missing cfg b n ->
  forall fuel, (length b < fuel)%nat -> many0_go fuel (av_pair_de cfg) b = PErr (EIncomplete n).
Proof.
  intros Hb Hm. induction Hm as [b H1 H2 H3|b a n H1 H2 H3 H4 Hm IH];
    intros fuel Hf; (destruct fuel as [|fuel]; [lia|]); cbn [many0_go].
  - rewrite av_pair_de_at by assumption. replace (len b <? 4 + u16_at b 2) with true by lia. reflexivity.
  - rewrite av_pair_de_at by assumption. replace (len b <? 4 + u16_at b 2) with false by lia.
    assert (E : match av_content_of cfg (u16_at b 0) (sub b 4 (u16_at b 2)) with
       | VOk a => POk (drop (4 + u16_at b 2) b) a
       | VLeft a => if debug cfg then PPanic PDebugAssert else POk (drop (4 + u16_at b 2) b) a
       | VBad => PErr EError
       end = POk (drop (4 + u16_at b 2) b) a).
    { destruct H4 as [->|[-> ->]]; reflexivity. }
    rewrite E. change (skipn (N.to_nat (4 + u16_at b 2)) b) with (drop (4 + u16_at b 2) b) in *.
    pose proof (drop_len (4 + u16_at b 2) b) as Hl. unfold len in *.
    destruct (length (drop (4 + u16_at b 2) b) =? length b)%nat eqn:El; [lia|].
    rewrite (IH (drop_bytes _ _ Hb) fuel ltac:(lia)). reflexivity.
Qed.
Lemma reject_missing cfg b w : av_walk cfg b w -> w = WReject -> exists n, missing cfg b n.
Proof.
  induction 1 as [b Hs|b H1 H2 H3|b H1 H2 H3 H4|b a H1 H2 H3 H4 H5|b a w H1 H2 H3 H4 Hw IH]; intros E; try discriminate.
  - eexists. now apply missing_here.
  - destruct w; try discriminate. destruct (IH eq_refl) as [n Hn]. exists n. eapply missing_later; eauto.
Qed.
Lemma many0_incomplete cfg b n : is_bytes b -> (many0 (av_pair_de cfg) b = PErr (EIncomplete n) <-> missing cfg b n).
Proof.
  intros Hb. split.
  - intros H. destruct (walk_total cfg b) as [w Hw]. pose proof (many0_agrees _ _ _ Hb Hw) as Hm.
    destruct w; cbn [walk_agrees] in Hm; rewrite H in Hm; try discriminate.
    destruct (reject_missing _ _ _ Hw eq_refl) as [k Hk].
    pose proof (missing_many0 _ _ _ Hb Hk (S (length b)) ltac:(lia)) as E.
    unfold many0 in H. rewrite H in E. now injection E as ->.
  - intros H. apply missing_many0; auto.
Qed.
Lemma av_pair_incomplete cfg b n : is_bytes b -> (av_pair_de cfg b = PErr (EIncomplete n) <->
  4 <= len b /\ u16_at b 0 <= 10 /\ n = 4 + u16_at b 2 - len b /\ 0 < n).
Proof.
  intros Hb. destruct (N.lt_ge_cases (len b) 4) as [H1|H1].
  { rewrite av_pair_de_stop by (unfold len in H1; lia). split; [discriminate|lia]. }
  destruct (N.lt_ge_cases 10 (u16_at b 0)) as [H2|H2].
  { rewrite av_pair_de_stop by lia. split; [discriminate|lia]. }
  rewrite av_pair_de_at by assumption. destruct (len b <? 4 + u16_at b 2) eqn:E.
  - split; [intros X; injection X as <-; lia|intros (_ & _ & -> & _); reflexivity].
  - destruct (av_content_of _ _ _); [|destruct (debug cfg)|]; split; intros X; try discriminate; lia.
Qed.
Lemma missing_bound cfg b n : missing cfg b n -> is_bytes b -> 0 < n < 65536.
Proof.
  intros H. induction H as [b H1 H2 H3|b a n H1 H2 H3 H4 Hm IH]; intros Hb.
  - pose proof (u16_at_u16 b 2 Hb) as X. unfold is_u16 in X. lia.
  - apply IH, is_bytes_skipn, Hb.
Qed.
Lemma missing_fun cfg b n m : is_bytes b -> missing cfg b n -> missing cfg b m -> n = m.
Proof.
  intros Hb H1 H2. apply many0_incomplete in H1; auto. apply many0_incomplete in H2; auto.
  rewrite H1 in H2. now injection H2.
Qed.

(** ** Fields *)
Lemma unicode_field_not_err b o e : unicode_field b o <> PErr e.
Proof. unfold unicode_field. destruct (_ =? _); [discriminate|]. now destruct (outsideb b o). Qed.
Lemma lm_field_not_err b o v e : lm_field b o v <> PErr e.
Proof. unfold lm_field. destruct (_ =? _); [discriminate|]. destruct (outsideb b o); [discriminate|]. now destruct (_ <? _). Qed.
Lemma unicode_field_val b o r v : unicode_field b o = POk r v -> ~ outside b o.
Proof.
  unfold unicode_field, outside. intros H. destruct (_ =? _) eqn:E; [lia|].
  destruct (outsideb b o) eqn:Eo; [discriminate|]. apply outsideb_false in Eo. unfold outside in Eo. lia.
Qed.
Lemma unicode_field_in b o : ~ outside b o -> exists v, unicode_field b o = POk [] v.
Proof. intros H. apply outsideb_false in H. unfold unicode_field. rewrite H. destruct (_ =? _); eauto. Qed.
Lemma lm_field_val b o c r v : lm_field b o c = POk r v -> ~ outside b o.
Proof.
  unfold lm_field, outside. intros H. destruct (_ =? _) eqn:E; [lia|].
  destruct (outsideb b o) eqn:Eo; [discriminate|]. apply outsideb_false in Eo. unfold outside in Eo. lia.
Qed.
Lemma lm_field_in b o c : ~ outside b o -> exists v, lm_field b o c = POk [] v.
Proof. intros H. apply outsideb_false in H. unfold lm_field. rewrite H. destruct (_ =? _); eauto. destruct (_ <? _); eauto. Qed.
Lemma infos_field_incomplete cfg b o n : is_bytes b -> (infos_field cfg b o = PErr (EIncomplete n) <->
  field_len b o <> 0 /\ ~ outside b o /\ missing cfg (field_data b o) n).
Proof.
  intros Hb. unfold infos_field. destruct (field_len b o =? 0) eqn:E; [split; [discriminate|lia]|].
  destruct (outsideb b o) eqn:Eo.
  { apply outsideb_spec in Eo. split; [discriminate|tauto]. }
  apply outsideb_false in Eo. rewrite <- many0_incomplete by (apply sub_bytes, Hb).
  destruct (many0 _ _) as [r v|e|w]; cbn [pbind]; split.
  - discriminate. - intros (_ & _ & H); discriminate.
  - intros H; injection H as ->. split; [lia|auto]. - intros (_ & _ & H). now injection H as ->.
  - discriminate. - intros (_ & _ & H); discriminate.
Qed.
Lemma nt_challenge_incomplete cfg v n : is_bytes v -> (nt_challenge_de cfg v = PErr (EIncomplete n) <->
  ntv2_header cfg v = true /\ missing cfg (skipn 28 v) n).
Proof.
  intros Hb. rewrite <- many0_incomplete by (apply is_bytes_skipn, Hb). change (skipn 28 v) with (drop 28 v).
  unfold nt_challenge_de, alt2, pmap. rewrite ntv2_de_at by exact Hb.
  destruct (ntv2_header cfg v); cbn [pbind].
  - destruct (walk_total cfg (drop 28 v)) as [w Hw]. apply many0_agrees in Hw; [|apply drop_bytes, Hb].
    destruct w; cbn [walk_agrees] in Hw; [|destruct Hw as [k Hw]|]; rewrite Hw; cbn [pbind];
      (split; [intros H; first [discriminate H|injection H as ->; split; reflexivity]|intros [_ H]; first [discriminate H|injection H as ->; reflexivity]]).
  - split; [|intros [H _]; discriminate]. unfold ntv1_de, pmap, buf_de, take. now destruct (_ <? _)%nat.
Qed.
Lemma nt_field_incomplete cfg b o n : is_bytes b -> (nt_field cfg b o = PErr (EIncomplete n) <->
  field_len b o <> 0 /\ ~ outside b o /\ ntv2_header cfg (field_data b o) = true
  /\ missing cfg (skipn 28 (field_data b o)) n).
Proof.
  intros Hb. unfold nt_field. destruct (field_len b o =? 0) eqn:E; [split; [discriminate|lia]|].
  destruct (outsideb b o) eqn:Eo.
  { apply outsideb_spec in Eo. split; [discriminate|tauto]. }
  apply outsideb_false in Eo. rewrite <- nt_challenge_incomplete by (apply sub_bytes, Hb).
  destruct (nt_challenge_de _ _) as [r v|e|w]; cbn [pbind]; split.
  - discriminate. - intros (_ & _ & H); discriminate.
  - intros H; injection H as ->. split; [lia|auto]. - intros (_ & _ & H). now injection H as ->.
  - discriminate. - intros (_ & _ & H); discriminate.
Qed.

(** ** C75 *)
Lemma C75_negotiate_never_lem : forall cfg b n, negotiate_de cfg b <> PErr (EIncomplete n).
Proof.
  intros cfg b n. rewrite negotiate_de_spec. destruct (negotiate_headerb b); [|discriminate].
  assert (H : forall o, oem_field b o <> PErr (EIncomplete n)).
  { intros o. unfold oem_field. destruct (_ =? _); [discriminate|]. destruct (outsideb b o); [discriminate|].
    now destruct (from_utf8 _). }
  pose proof (H 16) as H1. pose proof (H 24) as H2.
  destruct (oem_field b 16); cbn [pbind]; try congruence. destruct (oem_field b 24); cbn [pbind]; congruence.
Qed.
(** Exactly when the CHALLENGE decoder asks for more bytes, and for how many. *)
Lemma C75_challenge_incomplete_lem : forall cfg b n, is_bytes b ->
  (challenge_de cfg b = PErr (EIncomplete n) <-> challenge_incomplete cfg b n).
Proof.
  intros cfg b n Hb. rewrite challenge_de_spec. unfold challenge_incomplete. rewrite <- challenge_headerb_spec.
  rewrite <- (infos_field_incomplete cfg b 40 n Hb).
  destruct (challenge_headerb cfg b); [|split; [discriminate|intros [X _]; discriminate]].
  destruct (unicode_field b 12) as [r t|e|w] eqn:Et; cbn [pbind].
  - apply unicode_field_val in Et. destruct (infos_field cfg b 40) as [r' l|e|w]; cbn [pbind].
    + split; [destruct (last_is_not_eol l); discriminate|intros (_ & _ & X); discriminate].
    + split; [intros X; injection X as ->; auto|intros (_ & _ & X); injection X as ->; reflexivity].
    + split; [discriminate|intros (_ & _ & X); discriminate].
  - now apply unicode_field_not_err in Et.
  - split; [discriminate|]. intros (_ & X & _). apply unicode_field_in in X as [v X]. congruence.
Qed.
(** Exactly when the AUTHENTICATE decoder asks for more bytes, and for how many. *)
Lemma C75_authenticate_incomplete_lem : forall cfg b n, is_bytes b ->
  (authenticate_de cfg b = PErr (EIncomplete n) <-> authenticate_incomplete cfg b n).
Proof.
  intros cfg b n Hb. rewrite authenticate_de_spec. unfold authenticate_incomplete. rewrite <- authenticate_headerb_spec.
  rewrite <- (nt_field_incomplete cfg b 20 n Hb).
  destruct (authenticate_headerb b); [|split; [discriminate|intros [X _]; discriminate]].
  unfold authenticate_body. destruct (lm_field b 12 _) as [r t|e|w] eqn:Et; cbn [pbind].
  - apply lm_field_val in Et. destruct (nt_field cfg b 20) as [r' l|e|w]; cbn [pbind].
    + split; [|intros (_ & _ & X); discriminate].
      destruct (unicode_field b 28) as [?r ?v|?|?] eqn:E1; cbn [pbind]; try discriminate; [|now apply unicode_field_not_err in E1].
      destruct (unicode_field b 36) as [?r ?v|?|?] eqn:E2; cbn [pbind]; try discriminate; [|now apply unicode_field_not_err in E2].
      destruct (unicode_field b 44) as [?r ?v|?|?] eqn:E3; cbn [pbind]; try discriminate; [|now apply unicode_field_not_err in E3].
      unfold key_field_res. destruct (N.testbit _ 30); cbn [pbind]; [|discriminate].
      destruct (_ =? _); cbn [pbind]; [discriminate|]. destruct (outsideb _ _); cbn [pbind]; [discriminate|].
      now destruct (_ <? _).
    + split; [intros X; injection X as ->; auto|intros (_ & _ & X); injection X as ->; reflexivity].
    + split; [discriminate|intros (_ & _ & X); discriminate].
  - now apply lm_field_not_err in Et.
  - split; [discriminate|]. intros (_ & X & _). apply (lm_field_in b 12 (N.testbit (u32_at b 60) 9)) in X as [v X]. congruence.
Qed.
(** No number of further bytes turns the request into anything else: the same
    number of bytes is asked for again. *)
Lemma C75_more_bytes_do_not_help_lem : forall cfg b t n, is_bytes b -> is_bytes t ->
  (challenge_de cfg b = PErr (EIncomplete n) -> challenge_de cfg (b ++ t) = PErr (EIncomplete n))
  /\ (authenticate_de cfg b = PErr (EIncomplete n) -> authenticate_de cfg (b ++ t) = PErr (EIncomplete n)).
Proof.
  intros cfg b t n Hb Ht. assert (Hbt : is_bytes (b ++ t)) by (apply is_bytes_app; auto). split.
  - rewrite !C75_challenge_incomplete_lem by assumption.
    intros ((Hl & Hm & Hvo & Hst) & Ht12 & Hn & Hi & Hmi). unfold challenge_incomplete, challenge_header.
    rewrite !(u32_at_app_l b t 20) by lia. destruct (version_app b t (u32_at b 20) 48 ltac:(lia) Hvo) as [V1 V2].
    rewrite len_app, !sub_app_l by lia.
    split; [split; [lia|split; [apply is_message_app; [lia|exact Hm]|split; [exact V1|exact Hst]]]|].
    split; [apply inside_app; [lia|exact Ht12]|]. rewrite field_len_app by lia.
    split; [exact Hn|]. split; [apply inside_app; [lia|exact Hi]|]. rewrite field_data_app by (assumption || lia). exact Hmi.
  - rewrite !C75_authenticate_incomplete_lem by assumption.
    intros ((Hl & Hm & Hvo & Hmo) & Ht12 & Hn & Hi & Hh & Hmi). unfold authenticate_incomplete, authenticate_header.
    assert (Emo : authenticate_mic_off (b ++ t) = authenticate_mic_off b).
    { unfold authenticate_mic_off. now rewrite u32_at_app_l by lia. }
    rewrite !(u32_at_app_l b t 60) by lia. destruct (version_app b t (u32_at b 60) 64 ltac:(lia) Hvo) as [V1 V2].
    rewrite len_app, Emo.
    split; [split; [lia|split; [apply is_message_app; [lia|exact Hm]|split; [exact V1|lia]]]|].
    split; [apply inside_app; [lia|exact Ht12]|]. rewrite field_len_app by lia.
    split; [exact Hn|]. split; [apply inside_app; [lia|exact Hi]|]. rewrite field_data_app by (assumption || lia). auto.
Qed.
(** So a beginning of an acceptable message never makes a decoder ask for the rest. *)
Lemma C75_beginnings_lem : forall cfg b t n, is_bytes b -> is_bytes t ->
  (forall c r, challenge_de cfg (b ++ t) = POk r c -> challenge_de cfg b <> PErr (EIncomplete n))
  /\ (forall a r, authenticate_de cfg (b ++ t) = POk r a -> authenticate_de cfg b <> PErr (EIncomplete n)).
Proof.
  intros cfg b t n Hb Ht. destruct (C75_more_bytes_do_not_help_lem cfg b t n Hb Ht) as [H1 H2].
  split; intros x r H X; [apply H1 in X|apply H2 in X]; congruence.
Qed.
(** The number asked for is between 1 and 65535. *)
Lemma C75_amount_lem : forall cfg b n, is_bytes b ->
  challenge_de cfg b = PErr (EIncomplete n) \/ authenticate_de cfg b = PErr (EIncomplete n) -> 0 < n < 65536.
Proof.
  intros cfg b n Hb [H|H].
  - apply C75_challenge_incomplete_lem in H as (_ & _ & _ & _ & H); auto. apply (missing_bound cfg _ _ H), sub_bytes, Hb.
  - apply C75_authenticate_incomplete_lem in H as (_ & _ & _ & _ & _ & H); auto.
    apply (missing_bound cfg _ _ H), is_bytes_skipn, sub_bytes, Hb.
Qed.
(** A CHALLENGE whose target information is one pair announcing ten bytes too many; cut short anywhere, an
    encoded CHALLENGE is an error or a panic. *)
Definition ten_short : bytes :=
  NTLMSSP ++ le32 2 ++ repeat 0 8 ++ le32 1 ++ repeat 7 8 ++ repeat 0 8 ++ (le16 6 ++ le16 6 ++ le32 48)
  ++ [1; 0; 12; 0; 65; 0].
Example C75_ex_lem : is_bytes ten_short /\ challenge_de cfg_debug ten_short = PErr (EIncomplete 10)
  /\ challenge_de cfg_debug (firstn 40 (challenge_bytes cfg_debug sample_challenge)) = PErr EError
  /\ challenge_de cfg_debug (firstn 60 (challenge_bytes cfg_debug sample_challenge)) = PPanic PSlice.
Proof. split; [closed_valid|]. repeat split; vm_compute; reflexivity. Qed.

(** ** C76 *)
Lemma read_utf16_size b : 2 * N.of_nat (length (fst (read_utf16 b))) <= len b.
Proof.
  remember (length b) as n eqn:Hn. assert (H : (length b <= n)%nat) by lia. clear Hn. revert b H.
  induction n as [|n IH]; intros b H.
  - destruct b; [cbn; lia|cbn in H; lia].
  - destruct b as [|x [|y r]]; [cbn; lia|cbn; lia|]. cbn [read_utf16].
    specialize (IH r ltac:(cbn in H; lia)). rewrite !len_cons.
    destruct (read_utf16 r) as [s k]. cbn [fst] in IH.
    repeat (match goal with |- context [if ?c then _ else _] => destruct c end); cbn [fst length]; lia.
Qed.
Lemma av_content_size cfg id v a : av_content_of cfg id v = VOk a \/ av_content_of cfg id v = VLeft a ->
  av_size a <= 4 + len v.
Proof.
  intros H.
  assert (U : forall c x, used_up c x = VOk a \/ used_up c x = VLeft a -> a = x).
  { intros c x. unfold used_up. destruct (is_nil c); intros [X|X]; congruence. }
  assert (S : forall k, (forall s, av_size (k s) = 4 + 2 * N.of_nat (length s)) ->
     av_string k v = VOk a \/ av_string k v = VLeft a -> av_size a <= 4 + len v).
  { intros k Hk X. unfold av_string in X. apply U in X as ->. rewrite Hk. pose proof (read_utf16_size v). lia. }
  unfold av_content_of in H.
  destruct id as [|p]; [|do 4 (try destruct p as [p|p|]); try (destruct H; discriminate)];
    try (eapply S; [|exact H]; intros s; reflexivity).
  1: { destruct (len v =? 0); destruct H as [H|H]; try discriminate. injection H as <-. unfold av_size. lia. }
  all: match type of H with (if ?c then _ else _) = _ \/ _ => destruct c eqn:E; [|destruct H; discriminate] end;
    apply U in H as ->; unfold av_size; lia.
Qed.
Lemma len_skipn n (b : bytes) : len (skipn n b) = len b - N.of_nat n.
Proof. unfold len. rewrite skipn_length. lia. Qed.
Lemma walk_size cfg b w l r : av_walk cfg b w -> w = WList l r -> av_sizes l + len r <= len b.
Proof.
  intros H. revert l. induction H as [b Hs|b H1 H2 H3|b H1 H2 H3 H4|b a H1 H2 H3 H4 H5|b a w H1 H2 H3 H4 Hw IH];
    intros l E; try discriminate; try (injection E as <- <-; cbn [av_sizes]; lia).
  destruct w as [l' r'| |]; try discriminate. injection E as <- ->. cbn [av_sizes].
  specialize (IH l' eq_refl). rewrite len_skipn in IH.
  assert (X : av_size a <= 4 + len (sub b 4 (u16_at b 2))) by (apply (av_content_size cfg (u16_at b 0)); tauto).
  rewrite sub_len in X by lia. lia.
Qed.
Section Sizes.
Variables (b : bytes) (o : N).
Hypothesis Hb : is_bytes b.
Lemma field_bounded : field_len b o <> 0 -> ~ outside b o -> bounded (field_len b o) b /\ len (field_data b o) = field_len b o.
Proof.
  intros H1 H2. pose proof (u16_at_u16 b o Hb) as X. unfold is_u16 in X. unfold bounded.
  apply outsideb_false in H2. split; [|now apply field_data_len]. unfold outsideb in H2. unfold field_len in *. lia.
Qed.
Lemma zero_bounded : bounded 0 b.
Proof. unfold bounded. lia. Qed.
Lemma bounded_le n m : n <= m -> bounded m b -> bounded n b.
Proof. unfold bounded. lia. Qed.
Lemma text_bounded v : text_says b o v -> bounded (text_size v) b.
Proof.
  destruct v as [s|]; cbn [text_says text_size]; [|intros; apply zero_bounded]. intros (H1 & H2 & ->).
  destruct (field_bounded H1 H2) as [H3 H4]. pose proof (read_utf16_size (field_data b o)) as H5.
  eapply bounded_le; [|exact H3]. lia.
Qed.
Lemma oem_bounded v : oem_says b o v -> bounded (oem_size v) b.
Proof.
  destruct v as [s|]; cbn [oem_says oem_size]; [|intros; apply zero_bounded]. intros (H1 & H2 & _ & ->).
  destruct (field_bounded H1 H2) as [H3 H4]. now rewrite H4.
Qed.
Lemma infos_bounded cfg l : infos_say cfg b o l -> bounded (av_sizes l) b.
Proof.
  intros [[_ ->]|(H1 & H2 & r & H)]; [apply zero_bounded|].
  destruct (field_bounded H1 H2) as [H3 H4]. apply (walk_size _ _ _ l r) in H; [|reflexivity].
  eapply bounded_le; [|exact H3]. lia.
Qed.
Lemma lm_bounded c v : lm_says b o c v -> bounded (lm_size v) b.
Proof.
  intros [H1 H]. destruct v as [x|]; cbn [lm_size]; [|apply zero_bounded]. destruct H as [H _].
  destruct (field_bounded ltac:(lia) H1) as [H3 _]. eapply bounded_le; [|exact H3]. lia.
Qed.
Lemma key_bounded c v : key_says b o c v -> bounded (key_size v) b.
Proof.
  destruct v as [x|]; cbn [key_says key_size]; [|intros; apply zero_bounded]. intros (_ & H & H1 & _).
  destruct (field_bounded ltac:(lia) H1) as [H3 _]. eapply bounded_le; [|exact H3]. lia.
Qed.
Lemma nt_bounded cfg v : nt_says cfg b o v -> bounded (nt_size v) b.
Proof.
  destruct v as [x|]; cbn [nt_says nt_size]; [|intros; apply zero_bounded]. intros (H1 & H2 & H).
  destruct (field_bounded H1 H2) as [H3 H4]. eapply bounded_le; [|exact H3]. rewrite <- H4.
  inversion H as [l r Hh Hw|Hh Hw|Hh Hw|Hh Hl|Hh Hl]; subst; [|exact Hl].
  cbn [nt_target_infos]. apply (walk_size _ _ _ l r) in Hw; [|reflexivity]. rewrite len_skipn in Hw.
  unfold ntv2_header in Hh. lia.
Qed.
End Sizes.
(** Every component of a decoded message is no larger than the input, and than 65535 bytes. *)
Lemma C76_negotiate_size_lem : forall cfg b r n, is_bytes b -> negotiate_de cfg b = POk r n ->
  bounded (oem_size (n_domain n)) b /\ bounded (oem_size (n_workstation n)) b.
Proof.
  intros cfg b r n Hb H. apply C53_decoded_negotiate_lem in H as (_ & _ & _ & H1 & H2 & _).
  eauto using oem_bounded.
Qed.
Lemma C76_challenge_size_lem : forall cfg b r c, is_bytes b -> challenge_de cfg b = POk r c ->
  bounded (text_size (ch_target_name c)) b /\ len (ch_server_challenge c) = 8
  /\ bounded (av_sizes (ch_target_infos c)) b.
Proof.
  intros cfg b r c Hb H. apply C53_decoded_challenge_lem in H as (_ & Hh & H1 & _ & H2 & H3 & _); [|exact Hb].
  destruct Hh as [Hh _]. rewrite H2, sub_len by lia. eauto using text_bounded, infos_bounded.
Qed.
Lemma C76_authenticate_size_lem : forall cfg b r a, is_bytes b -> authenticate_de cfg b = POk r a ->
  bounded (lm_size (a_lm a)) b /\ bounded (nt_size (a_nt a)) b
  /\ bounded (text_size (a_domain a)) b /\ bounded (text_size (a_user a)) b
  /\ bounded (text_size (a_workstation a)) b /\ bounded (key_size (a_session_key a)) b
  /\ len (a_mic a) = 16.
Proof.
  intros cfg b r a Hb H.
  apply C53_decoded_authenticate_lem in H as (_ & Hh & H1 & H2 & H3 & H4 & H5 & H6 & _ & _ & H7 & _); [|exact Hb].
  destruct Hh as (_ & _ & _ & Hh). rewrite H7, sub_len by lia.
  repeat split; eauto using lm_bounded, nt_bounded, text_bounded, key_bounded;
  first [apply (lm_bounded _ _ Hb _ _ H1)|apply (nt_bounded _ _ Hb _ _ H2)|apply (text_bounded _ _ Hb _ H3)
   |apply (text_bounded _ _ Hb _ H4)|apply (text_bounded _ _ Hb _ H5)|apply (key_bounded _ _ Hb _ _ H6)].
Qed.
Example C76_ex_lem : let b := challenge_bytes cfg_debug sample_challenge in
  len b = 182 /\ exists c, challenge_de cfg_debug b = POk [] c
  /\ text_size (ch_target_name c) = 12 /\ av_sizes (ch_target_infos c) <> 0.
Proof. split; [vm_compute; reflexivity|]. eexists. split; [vm_compute; reflexivity|]. split; [reflexivity|discriminate]. Qed.
