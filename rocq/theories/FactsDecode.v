(** Facts about decoding: what is accepted, what panics, stability. *)
From Coq Require Import ZifyBool ZifyNat ZifyN.
From Verif Require Import Base Nom Unicode Wire Structures Messages Spec Lib Encode Decode RoundTrip Parse Samples FactsEncode.

Ltac Zify.zify_post_hook ::= Z.div_mod_to_equations.

(** ** Fields *)
Definition panics {A} (r : pres A) : Prop := exists w, r = PPanic w.

Lemma oem_field_ok b o r v : oem_field b o = POk r v <-> r = [] /\ oem_says b o v.
Proof.
  unfold oem_field, oem_says. destruct (field_len b o =? 0) eqn:E.
  { split.
    - intros H; injection H as <- <-. split; [reflexivity|lia].
    - intros [-> H]. destruct v; [lia|reflexivity]. }
  destruct (outsideb b o) eqn:Eo.
  { apply outsideb_spec in Eo. split; [discriminate|]. intros [_ H]. destruct v; [tauto|lia]. }
  apply outsideb_false in Eo. destruct (from_utf8 (field_data b o)) as [s|] eqn:Eu.
  - apply from_utf8_inv in Eu as [E1 E2]. split.
    + intros H; injection H as <- <-. repeat split; try assumption; lia.
    + intros [-> H]. destruct v as [s'|]; [|lia]. destruct H as (_ & _ & Hs & H).
      assert (Some s = Some s') as Hss by (rewrite <- (from_utf8_ok s), <- (from_utf8_ok s') by assumption; congruence).
      now injection Hss as ->.
  - split; [discriminate|]. intros [-> H]. destruct v as [s|]; [|lia]. destruct H as (_ & _ & Hs & H).
    rewrite <- H, from_utf8_ok in Eu by assumption. discriminate.
Qed.
Lemma oem_field_panic b o w : oem_field b o = PPanic w <-> w = PSlice /\ outside b o.
Proof.
  unfold oem_field. rewrite <- outsideb_spec. unfold outsideb. destruct (field_len b o =? 0); cbn [negb andb].
  { split; [discriminate|intros [_ H]; discriminate]. }
  destruct (len b <? _).
  - split; [intros H; injection H as <-; auto|intros [-> _]; reflexivity].
  - split; [destruct (from_utf8 _); discriminate|intros [_ H]; discriminate].
Qed.

Lemma unicode_field_ok b o r v : unicode_field b o = POk r v <-> r = [] /\ text_says b o v.
Proof.
  unfold unicode_field, text_says. destruct (field_len b o =? 0) eqn:E.
  { split.
    - intros H; injection H as <- <-. split; [reflexivity|lia].
    - intros [-> H]. destruct v; [lia|reflexivity]. }
  destruct (outsideb b o) eqn:Eo.
  { apply outsideb_spec in Eo. split; [discriminate|]. intros [_ H]. destruct v; [tauto|lia]. }
  apply outsideb_false in Eo. split.
  - intros H; injection H as <- <-. repeat split; try assumption; lia.
  - intros [-> H]. destruct v as [s'|]; [|lia]. destruct H as (_ & _ & ->). reflexivity.
Qed.
Lemma unicode_field_panic b o w : unicode_field b o = PPanic w <-> w = PSlice /\ outside b o.
Proof.
  unfold unicode_field. rewrite <- outsideb_spec. unfold outsideb. destruct (field_len b o =? 0); cbn [negb andb].
  { split; [discriminate|intros [_ H]; discriminate]. }
  destruct (len b <? _).
  - split; [intros H; injection H as <-; auto|intros [-> _]; reflexivity].
  - split; [discriminate|intros [_ H]; discriminate].
Qed.
Lemma unicode_field_noerr b o e : unicode_field b o <> PErr e.
Proof. unfold unicode_field. destruct (_ =? 0); [|destruct (outsideb b o)]; discriminate. Qed.


Lemma field_data_bytes b o : is_bytes b -> is_bytes (field_data b o).
Proof. apply sub_bytes. Qed.
Lemma infos_field_ok cfg b o r l : is_bytes b -> (infos_field cfg b o = POk r l <-> r = [] /\ infos_say cfg b o l).
Proof.
  intros Hb. unfold infos_field, infos_say. destruct (field_len b o =? 0) eqn:E.
  { split.
    - intros H; injection H as <- <-. split; [reflexivity|left; split; [lia|reflexivity]].
    - intros [-> [[_ ->]|[H _]]]; [reflexivity|lia]. }
  destruct (outsideb b o) eqn:Eo.
  { apply outsideb_spec in Eo. split; [discriminate|]. intros [_ [[H _]|(_ & H & _)]]; [lia|tauto]. }
  apply outsideb_false in Eo.
  destruct (walk_total cfg (field_data b o)) as [w Hw].
  pose proof (many0_agrees cfg _ w (field_data_bytes b o Hb) Hw) as Ha.
  split.
  - intros H. destruct w as [l' r'| |]; cbn [walk_agrees] in Ha.
    + rewrite Ha in H. cbn [pbind] in H. injection H as <- <-. split; [reflexivity|right].
      split; [lia|]. split; [assumption|]. now exists r'.
    + destruct Ha as [n Ha]. rewrite Ha in H. discriminate.
    + rewrite Ha in H. discriminate.
  - intros [-> [[H _]|(_ & _ & r' & H)]]; [lia|].
    apply many0_agrees in H; [|now apply field_data_bytes]. cbn [walk_agrees] in H. rewrite H. reflexivity.
Qed.
Lemma infos_field_panic cfg b o w : is_bytes b -> (infos_field cfg b o = PPanic w <->
  (w = PSlice /\ outside b o) \/ (w = PDebugAssert /\ ~ outside b o /\ field_len b o <> 0 /\ av_walk cfg (field_data b o) WPanic)).
Proof.
  intros Hb. unfold infos_field. rewrite <- outsideb_spec. unfold outsideb. destruct (field_len b o =? 0) eqn:E; cbn [negb andb].
  { split; [discriminate|]. intros [[_ H]|(_ & _ & H & _)]; [discriminate|lia]. }
  destruct (len b <? _) eqn:Eo.
  - split; [intros H; injection H as <-; auto|intros [[-> _]|(_ & H & _)]; [reflexivity|congruence]].
  - destruct (walk_total cfg (field_data b o)) as [x Hw].
    pose proof (many0_agrees cfg _ x (field_data_bytes b o Hb) Hw) as Ha.
    split.
    + intros H. right. destruct x as [l' r'| |]; cbn [walk_agrees] in Ha.
      * rewrite Ha in H. discriminate.
      * destruct Ha as [n Ha]. rewrite Ha in H. discriminate.
      * rewrite Ha in H. cbn [pbind] in H. injection H as <-. repeat split; [congruence|lia|assumption].
    + intros [[_ H]|(-> & _ & _ & H)]; [discriminate|].
      apply many0_agrees in H; [|now apply field_data_bytes]. cbn [walk_agrees] in H. rewrite H. reflexivity.
Qed.

Lemma lm_field_ok b o v1 r v : lm_field b o v1 = POk r v <-> r = [] /\ lm_says b o v1 v.
Proof.
  unfold lm_field, lm_says. destruct (field_len b o =? 0) eqn:E.
  { assert (~ outside b o) by (unfold outside; lia). split.
    - intros H1; injection H1 as <- <-. repeat split; [assumption|lia].
    - intros (-> & _ & H1). destruct v; [lia|reflexivity]. }
  destruct (outsideb b o) eqn:Eo.
  { apply outsideb_spec in Eo. split; [discriminate|]. intros (_ & H & _). tauto. }
  apply outsideb_false in Eo. destruct (field_len b o <? 24) eqn:E2.
  - split.
    + intros H1; injection H1 as <- <-. repeat split; [assumption|lia].
    + intros (-> & _ & H1). destruct v; [lia|reflexivity].
  - split.
    + intros H1; injection H1 as <- <-. repeat split; [assumption|lia].
    + intros (-> & _ & H1). destruct v; [|lia]. destruct H1 as [_ ->]. reflexivity.
Qed.
Lemma lm_field_panic b o v1 w : lm_field b o v1 = PPanic w <-> w = PSlice /\ outside b o.
Proof.
  unfold lm_field. rewrite <- outsideb_spec. unfold outsideb. destruct (field_len b o =? 0); cbn [negb andb].
  { split; [discriminate|intros [_ H]; discriminate]. }
  destruct (len b <? _).
  - split; [intros H; injection H as <-; auto|intros [-> _]; reflexivity].
  - split; [destruct (_ <? 24); discriminate|intros [_ H]; discriminate].
Qed.
Lemma lm_field_noerr b o v1 e : lm_field b o v1 <> PErr e.
Proof. unfold lm_field. destruct (_ =? 0); [|destruct (outsideb b o); [|destruct (_ <? 24)]]; discriminate. Qed.

Lemma nt_field_ok cfg b o r v : is_bytes b -> (nt_field cfg b o = POk r v <-> r = [] /\ nt_says cfg b o v).
Proof.
  intros Hb. unfold nt_field, nt_says. destruct (field_len b o =? 0) eqn:E.
  { split.
    - intros H; injection H as <- <-. split; [reflexivity|lia].
    - intros [-> H]. destruct v; [lia|reflexivity]. }
  destruct (outsideb b o) eqn:Eo.
  { apply outsideb_spec in Eo. split; [discriminate|]. intros [_ H]. destruct v; [tauto|lia]. }
  apply outsideb_false in Eo.
  destruct (nt_total cfg (field_data b o)) as [x Hx].
  pose proof (nt_agree cfg _ x (field_data_bytes b o Hb) Hx) as Ha.
  split.
  - intros H. destruct x as [c| |]; cbn [nt_agrees] in Ha.
    + destruct Ha as [r' Ha]. rewrite Ha in H. cbn [pbind] in H. injection H as <- <-.
      repeat split; [lia|assumption..].
    + destruct Ha as [n Ha]. rewrite Ha in H. discriminate.
    + rewrite Ha in H. discriminate.
  - intros [-> H]. destruct v as [c|]; [|lia]. destruct H as (_ & _ & H).
    apply nt_agree in H; [|now apply field_data_bytes]. destruct H as [r' H]. rewrite H. reflexivity.
Qed.
Lemma nt_field_panic cfg b o w : is_bytes b -> (nt_field cfg b o = PPanic w <->
  (w = PSlice /\ outside b o) \/ (w = PDebugAssert /\ ~ outside b o /\ field_len b o <> 0 /\ nt_read cfg (field_data b o) NtPanic)).
Proof.
  intros Hb. unfold nt_field. rewrite <- outsideb_spec. unfold outsideb. destruct (field_len b o =? 0) eqn:E; cbn [negb andb].
  { split; [discriminate|]. intros [[_ H]|(_ & _ & H & _)]; [discriminate|lia]. }
  destruct (len b <? _) eqn:Eo.
  - split; [intros H; injection H as <-; auto|intros [[-> _]|(_ & H & _)]; [reflexivity|congruence]].
  - destruct (nt_total cfg (field_data b o)) as [x Hx].
    pose proof (nt_agree cfg _ x (field_data_bytes b o Hb) Hx) as Ha.
    split.
    + intros H. right. destruct x as [c| |]; cbn [nt_agrees] in Ha.
      * destruct Ha as [r' Ha]. rewrite Ha in H. discriminate.
      * destruct Ha as [n Ha]. rewrite Ha in H. discriminate.
      * rewrite Ha in H. cbn [pbind] in H. injection H as <-. repeat split; [congruence|lia|assumption].
    + intros [[_ H]|(-> & _ & _ & H)]; [discriminate|].
      apply nt_agree in H; [|now apply field_data_bytes]. cbn [nt_agrees] in H. rewrite H. reflexivity.
Qed.

Lemma key_field_ok b o c r v : key_field_res b o c = POk r v <-> r = [] /\ key_says b o c v.
Proof.
  unfold key_field_res, key_says. destruct c.
  2:{ split; [intros H; injection H as <- <-; split; [reflexivity|discriminate]|].
      intros [-> H]. destruct v; [destruct H; discriminate|reflexivity]. }
  destruct (field_len b o =? 0) eqn:E.
  { split.
    - intros H; injection H as <- <-. split; [reflexivity|intros; lia].
    - intros [-> H]. destruct v; [lia|reflexivity]. }
  destruct (outsideb b o) eqn:Eo.
  { apply outsideb_spec in Eo. split; [discriminate|]. intros [_ H]. destruct v; [tauto|lia]. }
  apply outsideb_false in Eo. destruct (field_len b o <? 16) eqn:E2.
  - split; [discriminate|]. intros [_ H]. destruct v; lia.
  - split.
    + intros H; injection H as <- <-. repeat split; [lia|assumption].
    + intros [-> H]. destruct v as [k|]; [|lia]. destruct H as (_ & _ & _ & ->). reflexivity.
Qed.
Lemma key_field_panic b o c w : key_field_res b o c = PPanic w <-> w = PSlice /\ c = true /\ outside b o.
Proof.
  unfold key_field_res. rewrite <- outsideb_spec. unfold outsideb. destruct c.
  2:{ split; [discriminate|intros (_ & H & _); discriminate]. }
  destruct (field_len b o =? 0); cbn [negb andb].
  { split; [discriminate|intros (_ & _ & H); discriminate]. }
  destruct (len b <? _).
  - split; [intros H; injection H as <-; auto|intros [-> _]; reflexivity].
  - split; [destruct (_ <? 16); discriminate|intros (_ & _ & H); discriminate].
Qed.

(** ** C53 *)
(** What the decoders accept, and the message they return, read off the bytes by offset. *)
Lemma C53_decoded_negotiate_lem : forall cfg b r n,
  negotiate_de cfg b = POk r n <-> r = [] /\ negotiate_says b n.
Proof.
  intros cfg b r n. rewrite negotiate_de_spec. unfold negotiate_says. rewrite <- negotiate_headerb_spec.
  destruct (negotiate_headerb b).
  2:{ split; [discriminate|intros (_ & H & _); discriminate]. }
  split.
  - destruct (oem_field b 16) as [r1 d| |] eqn:E1; try discriminate. cbn [pbind].
    destruct (oem_field b 24) as [r2 w| |] eqn:E2; try discriminate. cbn [pbind].
    intros H; injection H as <- <-. apply oem_field_ok in E1 as [_ E1]. apply oem_field_ok in E2 as [_ E2].
    repeat split; assumption.
  - destruct n as [f d w v]. cbn. intros (-> & _ & -> & H1 & H2 & ->).
    assert (E1 : oem_field b 16 = POk [] d) by (apply oem_field_ok; auto).
    assert (E2 : oem_field b 24 = POk [] w) by (apply oem_field_ok; auto).
    rewrite E1. cbn [pbind]. rewrite E2. reflexivity.
Qed.
Lemma C53_decoded_challenge_lem : forall cfg b r c, is_bytes b ->
  (challenge_de cfg b = POk r c <-> r = [] /\ challenge_says cfg b c).
Proof.
  intros cfg b r c Hb. rewrite challenge_de_spec. unfold challenge_says. rewrite <- challenge_headerb_spec.
  destruct (challenge_headerb cfg b).
  2:{ split; [discriminate|intros (_ & H & _); discriminate]. }
  split.
  - destruct (unicode_field b 12) as [r1 t| |] eqn:E1; try discriminate. cbn [pbind].
    destruct (infos_field cfg b 40) as [r2 l| |] eqn:E2; try discriminate. cbn [pbind].
    destruct (last_is_not_eol l) eqn:El; [discriminate|].
    intros H; injection H as <- <-. apply unicode_field_ok in E1 as [_ E1].
    apply infos_field_ok in E2 as [_ E2]; [|exact Hb]. apply eol_inv in El.
    repeat split; assumption.
  - destruct c as [t f sc l v]. cbn. intros (-> & _ & H1 & -> & -> & H2 & H3 & ->).
    assert (E1 : unicode_field b 12 = POk [] t) by (apply unicode_field_ok; auto).
    assert (E2 : infos_field cfg b 40 = POk [] l) by (apply infos_field_ok; auto).
    rewrite E1. cbn [pbind]. rewrite E2. cbn [pbind]. now rewrite eol_ok.
Qed.
Lemma C53_decoded_authenticate_lem : forall cfg b r a, is_bytes b ->
  (authenticate_de cfg b = POk r a <-> r = [] /\ authenticate_says cfg b a).
Proof.
  intros cfg b r a Hb. rewrite authenticate_de_spec. unfold authenticate_says. rewrite <- authenticate_headerb_spec.
  destruct (authenticate_headerb b).
  2:{ split; [discriminate|intros (_ & H & _); discriminate]. }
  unfold authenticate_body. split.
  - destruct (lm_field b 12 _) as [r1 lm| |] eqn:E1; try discriminate. cbn [pbind].
    destruct (nt_field cfg b 20) as [r2 nt| |] eqn:E2; try discriminate. cbn [pbind].
    destruct (unicode_field b 28) as [r3 d| |] eqn:E3; try discriminate. cbn [pbind].
    destruct (unicode_field b 36) as [r4 u| |] eqn:E4; try discriminate. cbn [pbind].
    destruct (unicode_field b 44) as [r5 w| |] eqn:E5; try discriminate. cbn [pbind].
    destruct (key_field_res b 52 _) as [r6 k| |] eqn:E6; try discriminate. cbn [pbind].
    intros H; injection H as <- <-.
    apply lm_field_ok in E1 as [_ E1]. apply nt_field_ok in E2 as [_ E2]; [|exact Hb].
    apply unicode_field_ok in E3 as [_ E3]. apply unicode_field_ok in E4 as [_ E4].
    apply unicode_field_ok in E5 as [_ E5]. apply key_field_ok in E6 as [_ E6].
    destruct E1 as [E1a E1b]. repeat (split; try assumption).
  - destruct a as [lm nt d u w k f v m e]. cbn -[N.testbit].
    intros (-> & _ & H1 & H2 & H3 & H4 & H5 & H6 & -> & -> & -> & ->).
    assert (E1 : lm_field b 12 (N.testbit (u32_at b 60) 9) = POk [] lm) by (apply lm_field_ok; auto).
    assert (E2 : nt_field cfg b 20 = POk [] nt) by (apply nt_field_ok; auto).
    assert (E3 : unicode_field b 28 = POk [] d) by (apply unicode_field_ok; auto).
    assert (E4 : unicode_field b 36 = POk [] u) by (apply unicode_field_ok; auto).
    assert (E5 : unicode_field b 44 = POk [] w) by (apply unicode_field_ok; auto).
    assert (E6 : key_field_res b 52 (N.testbit (u32_at b 60) 30) = POk [] k) by (apply key_field_ok; auto).
    rewrite E1. cbn [pbind]. rewrite E2. cbn [pbind]. rewrite E3. cbn [pbind]. rewrite E4. cbn [pbind].
    rewrite E5. cbn [pbind]. rewrite E6. reflexivity.
Qed.

(** A NEGOTIATE whose strings overlap and start inside the header still decodes. *)
Definition overlapping_negotiate : bytes :=
  NTLMSSP ++ le32 1 ++ le32 1 ++ (le16 7 ++ le16 0 ++ le32 0) ++ (le16 4 ++ le16 9 ++ le32 3).
Example C53_ex_lem :
  negotiate_says overlapping_negotiate (mkNegotiate 1 (Some [78; 84; 76; 77; 83; 83; 80]) (Some [77; 83; 83; 80]) None)
  /\ (is_bytes (challenge_bytes cfg_debug sample_challenge)
      /\ challenge_says cfg_debug (challenge_bytes cfg_debug sample_challenge) sample_challenge)
  /\ (is_bytes (authenticate_bytes cfg_debug sample_authenticate)
      /\ exists a, authenticate_says cfg_debug (authenticate_bytes cfg_debug sample_authenticate) a).
Proof.
  split; [|split].
  - eapply (C53_decoded_negotiate_lem cfg_debug _ []). vm_compute. reflexivity.
  - split; [closed_valid|]. eapply (C53_decoded_challenge_lem cfg_debug _ []); [closed_valid|vm_compute; reflexivity].
  - split; [closed_valid|]. eexists. eapply (C53_decoded_authenticate_lem cfg_debug _ []); [closed_valid|vm_compute; reflexivity].
Qed.

(** ** C08, C48, C49 *)
Lemma C08_negotiate_panics_iff_lem : forall cfg b w,
  negotiate_de cfg b = PPanic w <->
  w = PSlice /\ negotiate_header b
  /\ (outside b 16 \/ ((exists d, oem_says b 16 d) /\ outside b 24)).
Proof.
  intros cfg b w. rewrite negotiate_de_spec, <- negotiate_headerb_spec.
  destruct (negotiate_headerb b).
  2:{ split; [discriminate|intros (_ & H & _); discriminate]. }
  destruct (oem_field b 16) as [r1 d|e|w1] eqn:E1; cbn [pbind].
  - destruct (oem_field b 24) as [r2 d2|e2|w2] eqn:E2; cbn [pbind].
    + split; [discriminate|]. intros (_ & _ & [H|[_ H]]).
      * assert (HH : oem_field b 16 = PPanic PSlice) by (apply oem_field_panic; auto). congruence.
      * assert (HH : oem_field b 24 = PPanic PSlice) by (apply oem_field_panic; auto). congruence.
    + split; [discriminate|]. intros (_ & _ & [H|[_ H]]).
      * assert (HH : oem_field b 16 = PPanic PSlice) by (apply oem_field_panic; auto). congruence.
      * assert (HH : oem_field b 24 = PPanic PSlice) by (apply oem_field_panic; auto). congruence.
    + apply oem_field_panic in E2 as [-> E2]. apply oem_field_ok in E1 as [_ E1]. split.
      * intros H; injection H as <-. eauto 6.
      * intros [-> _]. reflexivity.
  - split; [discriminate|]. intros (_ & _ & [H|[[d H] _]]).
    + assert (HH : oem_field b 16 = PPanic PSlice) by (apply oem_field_panic; auto). congruence.
    + assert (HH : oem_field b 16 = POk [] d) by (apply oem_field_ok; auto). congruence.
  - apply oem_field_panic in E1 as [-> E1]. split.
    + intros H; injection H as <-. auto.
    + intros [-> _]. reflexivity.
Qed.
(** NTLMSSP NEGOTIATE with flags 1, domain length 1 at offset 200. *)
Definition bad_negotiate : bytes :=
  NTLMSSP ++ le32 1 ++ le32 1 ++ (le16 1 ++ le16 1 ++ le32 200) ++ repeat 0 8.
Example C08_ex_lem : negotiate_header bad_negotiate /\ outside bad_negotiate 16
  /\ negotiate_de cfg_release bad_negotiate = PPanic PSlice.
Proof. split; [|split]; [closed_valid| |reflexivity]. split; [vm_compute; discriminate|reflexivity]. Qed.

Lemma C48_challenge_panics_iff_lem : forall cfg b w, is_bytes b ->
  (challenge_de cfg b = PPanic w <->
   challenge_header cfg b
   /\ ((w = PSlice /\ (outside b 12 \/ outside b 40))
       \/ (w = PDebugAssert /\ ~ outside b 12 /\ ~ outside b 40 /\ field_len b 40 <> 0
           /\ av_walk cfg (field_data b 40) WPanic))).
Proof.
  intros cfg b w Hb. rewrite challenge_de_spec, <- challenge_headerb_spec.
  destruct (challenge_headerb cfg b).
  2:{ split; [discriminate|intros (H & _); discriminate]. }
  destruct (unicode_field b 12) as [r1 d|e|w1] eqn:E1; cbn [pbind].
  - assert (N1 : ~ outside b 12).
    { intros H. assert (HH : unicode_field b 12 = PPanic PSlice) by (apply unicode_field_panic; auto). congruence. }
    pose proof (infos_field_panic cfg b 40 w Hb) as Hp.
    destruct (infos_field cfg b 40) as [r2 l|e2|w2] eqn:E2; cbn [pbind].
    + split; [destruct (last_is_not_eol l); discriminate|].
      intros (_ & H). discriminate (proj2 Hp); tauto.
    + split; [discriminate|]. intros (_ & H). discriminate (proj2 Hp); tauto.
    + assert (HQ : PPanic w2 = PPanic w :> pres challenge <-> PPanic w2 = PPanic w :> pres (list av_pair))
        by (split; congruence).
      rewrite HQ, Hp. tauto.
  - now apply unicode_field_noerr in E1.
  - apply unicode_field_panic in E1 as [-> E1]. split.
    + intros H; injection H as <-. auto.
    + intros (_ & [[-> _]|(_ & H & _)]); [reflexivity|contradiction].
Qed.
(** In a release build only the ranges matter. *)
Lemma C48_challenge_panics_release_lem : forall cfg b, is_bytes b -> debug cfg = false ->
  ((exists w, challenge_de cfg b = PPanic w) <-> challenge_header cfg b /\ (outside b 12 \/ outside b 40)).
Proof.
  intros cfg b Hb Hd. split.
  - intros [w H]. apply C48_challenge_panics_iff_lem in H as [H1 [H2|(_ & _ & _ & _ & H2)]]; [tauto| |exact Hb].
    now apply walk_release in H2.
  - intros [H1 H2]. exists PSlice. apply C48_challenge_panics_iff_lem; auto.
Qed.
(** CHALLENGE with target infos at [56]: id 1, length 2, a NUL unit. *)
Definition bad_challenge : bytes :=
  NTLMSSP ++ le32 2 ++ repeat 0 8 ++ le32 8388609 ++ repeat 7 8 ++ repeat 0 8
  ++ (le16 6 ++ le16 6 ++ le32 48) ++ [1; 0; 2; 0; 0; 0].
Example C48_ex_lem : is_bytes bad_challenge /\ challenge_header cfg_debug bad_challenge
  /\ challenge_de cfg_debug bad_challenge = PPanic PDebugAssert
  /\ av_walk cfg_debug (field_data bad_challenge 40) WPanic
  /\ challenge_de cfg_release bad_challenge = PErr EError.
Proof.
  split; [|split; [|split; [|split]]]; [closed_valid|closed_valid|reflexivity| |reflexivity].
  apply walk_left with (a := AvNbComputerName []); vm_compute; try reflexivity; discriminate.
Qed.

Lemma C49_authenticate_panics_iff_lem : forall cfg b w, is_bytes b ->
  (authenticate_de cfg b = PPanic w <->
   authenticate_header b
   /\ ((w = PSlice /\ (outside b 12 \/ outside b 20
          \/ ((exists v, nt_says cfg b 20 v)
              /\ (outside b 28 \/ outside b 36 \/ outside b 44
                  \/ (N.testbit (u32_at b 60) 30 = true /\ outside b 52)))))
       \/ (w = PDebugAssert /\ ~ outside b 12 /\ ~ outside b 20 /\ field_len b 20 <> 0
           /\ nt_read cfg (field_data b 20) NtPanic))).
Proof.
  intros cfg b w Hb. rewrite authenticate_de_spec, <- authenticate_headerb_spec.
  destruct (authenticate_headerb b).
  2:{ split; [discriminate|intros (H & _); discriminate]. }
  unfold authenticate_body.
  destruct (lm_field b 12 _) as [r1 lm|e|w1] eqn:E1; cbn [pbind].
  2:{ now apply lm_field_noerr in E1. }
  2:{ apply lm_field_panic in E1 as [-> E1]. split.
      - intros H; injection H as <-. auto.
      - intros (_ & [[-> _]|(_ & H & _)]); [reflexivity|contradiction]. }
  assert (N1 : ~ outside b 12).
  { intros H. assert (HH : lm_field b 12 (N.testbit (u32_at b 60) 9) = PPanic PSlice) by (apply lm_field_panic; auto). congruence. }
  pose proof (nt_field_panic cfg b 20 w Hb) as Hp.
  pose proof (nt_field_ok cfg b 20) as Hok.
  destruct (nt_field cfg b 20) as [r2 nt|e2|w2] eqn:E2; cbn [pbind].
  2:{ split; [discriminate|]. intros (_ & [[-> [H|[H|[[v H] _]]]]|H]).
      - contradiction.
      - discriminate (proj2 Hp). auto.
      - discriminate (proj2 (Hok [] v Hb)). auto.
      - discriminate (proj2 Hp). tauto. }
  2:{ assert (HQ : PPanic w2 = PPanic w :> pres authenticate <-> PPanic w2 = PPanic w :> pres (option nt_challenge))
        by (split; congruence).
      rewrite HQ, Hp. split; [tauto|]. intros (_ & [[-> [H|[H|[[v H] _]]]]|H]); try tauto.
      discriminate (proj2 (Hok [] v Hb)). auto. }
  assert (N2 : ~ outside b 20).
  { intros H. pose proof (proj2 (nt_field_panic cfg b 20 PSlice Hb)) as HH.
    rewrite E2 in HH. discriminate HH. auto. }
  assert (N3 : ~ (field_len b 20 <> 0 /\ nt_read cfg (field_data b 20) NtPanic)).
  { intros H. pose proof (proj2 (nt_field_panic cfg b 20 PDebugAssert Hb)) as HH.
    rewrite E2 in HH. discriminate HH. tauto. }
  assert (Hnt : exists v, nt_says cfg b 20 v).
  { exists nt. eapply (Hok r2 nt Hb). reflexivity. }
  destruct (unicode_field b 28) as [r3 d|e3|w3] eqn:E3; cbn [pbind].
  2:{ now apply unicode_field_noerr in E3. }
  2:{ apply unicode_field_panic in E3 as [-> E3]. split.
      - intros H; injection H as <-. tauto.
      - intros (_ & [[-> _]|H]); [reflexivity|tauto]. }
  assert (N4 : ~ outside b 28).
  { intros H. assert (HH : unicode_field b 28 = PPanic PSlice) by (apply unicode_field_panic; auto). congruence. }
  destruct (unicode_field b 36) as [r4 u|e4|w4] eqn:E4; cbn [pbind].
  2:{ now apply unicode_field_noerr in E4. }
  2:{ apply unicode_field_panic in E4 as [-> E4]. split.
      - intros H; injection H as <-. tauto.
      - intros (_ & [[-> _]|H]); [reflexivity|tauto]. }
  assert (N5 : ~ outside b 36).
  { intros H. assert (HH : unicode_field b 36 = PPanic PSlice) by (apply unicode_field_panic; auto). congruence. }
  destruct (unicode_field b 44) as [r5 ws|e5|w5] eqn:E5; cbn [pbind].
  2:{ now apply unicode_field_noerr in E5. }
  2:{ apply unicode_field_panic in E5 as [-> E5]. split.
      - intros H; injection H as <-. tauto.
      - intros (_ & [[-> _]|H]); [reflexivity|tauto]. }
  assert (N6 : ~ outside b 44).
  { intros H. assert (HH : unicode_field b 44 = PPanic PSlice) by (apply unicode_field_panic; auto). congruence. }
  pose proof (key_field_panic b 52 (N.testbit (u32_at b 60) 30) w) as Hk.
  destruct (key_field_res b 52 _) as [r6 k|e6|w6] eqn:E6; cbn [pbind].
  - split; [discriminate|]. intros H. discriminate (proj2 Hk). tauto.
  - split; [discriminate|]. intros H. discriminate (proj2 Hk). tauto.
  - assert (HQ : PPanic w6 = PPanic w :> pres authenticate <-> PPanic w6 = PPanic w :> pres (option bytes))
        by (split; congruence).
    rewrite HQ, Hk. tauto.
Qed.
(** AUTHENTICATE whose key field (announced by KEY_EXCH) lies outside. *)
Definition bad_authenticate (fl : N) : bytes :=
  NTLMSSP ++ le32 3 ++ repeat 0 40 ++ (le16 16 ++ le16 16 ++ le32 80) ++ le32 fl ++ repeat 0 16.
Example C49_ex_lem : is_bytes (bad_authenticate 1073741825)
  /\ authenticate_header (bad_authenticate 1073741825)
  /\ authenticate_de cfg_release (bad_authenticate 1073741825) = PPanic PSlice
  /\ nt_says cfg_release (bad_authenticate 1073741825) 20 None
  /\ outside (bad_authenticate 1073741825) 52
  /\ exists a, authenticate_de cfg_release (bad_authenticate 1) = POk [] a.
Proof.
  split; [closed_valid|]. split; [closed_valid|]. split; [reflexivity|]. split; [reflexivity|].
  split; [split; [vm_compute; discriminate|reflexivity]|]. eexists. vm_compute. reflexivity.
Qed.

(** ** C07 *)
Lemma C07_decoders_never_panic_refuted_lem :
  ~ (forall cfg b w, is_bytes b -> negotiate_de cfg b <> PPanic w)
  /\ ~ (forall cfg b w, is_bytes b -> challenge_de cfg b <> PPanic w)
  /\ ~ (forall cfg b w, is_bytes b -> authenticate_de cfg b <> PPanic w).
Proof.
  split; [|split]; intros H.
  - apply (H cfg_release bad_negotiate PSlice); [closed_valid|reflexivity].
  - apply (H cfg_debug bad_challenge PDebugAssert); [closed_valid|reflexivity].
  - apply (H cfg_release (bad_authenticate 1073741825) PSlice); [closed_valid|reflexivity].
Qed.
(** What remains true: a decoder panics on a field out of range or, in a debug
    build, on an AV pair with bytes left over; loops always terminate. *)
Lemma C07_decoders_panic_reasons_lem : forall cfg b w, is_bytes b ->
  (negotiate_de cfg b = PPanic w -> w = PSlice)
  /\ (challenge_de cfg b = PPanic w -> w = PSlice \/ (w = PDebugAssert /\ debug cfg = true))
  /\ (authenticate_de cfg b = PPanic w -> w = PSlice \/ (w = PDebugAssert /\ debug cfg = true)).
Proof.
  intros cfg b w Hb. split; [|split]; intros H.
  - apply C08_negotiate_panics_iff_lem in H. tauto.
  - apply C48_challenge_panics_iff_lem in H as [_ [H|H]]; [tauto| |exact Hb].
    right. split; [tauto|]. destruct (debug cfg) eqn:D; [reflexivity|].
    destruct H as (_ & _ & _ & _ & H). now apply walk_release in H.
  - apply C49_authenticate_panics_iff_lem in H as [_ [H|H]]; [tauto| |exact Hb].
    right. split; [tauto|]. destruct (debug cfg) eqn:D; [reflexivity|].
    destruct H as (_ & _ & _ & _ & H). inversion H; subst. now apply walk_release in H1.
Qed.

(** The decoders of the structures never panic, except in debug builds on an AV
    pair with bytes left over, alone or in an NTLMv2 response. *)
Lemma bind_np {A B} (x : pres A) (k : bytes -> A -> pres B) w : (forall w', x <> PPanic w') ->
  (forall r a, k r a <> PPanic w) -> pbind x k <> PPanic w.
Proof. intros H K. destruct x; cbn [pbind]; [apply K|discriminate|now specialize (H r)]. Qed.
Lemma take_np n i w : take n i <> PPanic w.
Proof. unfold take. destruct (_ <? _)%nat; discriminate. Qed.
Lemma le_np n i w : le_uint n i <> PPanic w.
Proof. apply bind_np; [intros; apply take_np|discriminate]. Qed.
Lemma verify_np {A} (p : parser A) f i w : (forall i w, p i <> PPanic w) -> verify p f i <> PPanic w.
Proof. intros H. apply bind_np; [auto|]. intros r a. destruct (f a); discriminate. Qed.
Lemma map_opt_np {A B} (p : parser A) (f : A -> option B) i w : (forall i w, p i <> PPanic w) -> map_opt p f i <> PPanic w.
Proof. intros H. apply bind_np; [auto|]. intros r a. destruct (f a); discriminate. Qed.
Lemma pmap_np {A B} (p : parser A) (f : A -> B) i w : (forall i w, p i <> PPanic w) -> pmap p f i <> PPanic w.
Proof. intros H. apply bind_np; [auto|discriminate]. Qed.
Ltac np := repeat first
  [ discriminate | apply le_np | apply take_np | apply verify_np; intros | apply map_opt_np; intros | apply pmap_np; intros
  | apply bind_np; intros ].
Lemma av_pair_panic cfg b w : is_bytes b -> av_pair_de cfg b = PPanic w -> w = PDebugAssert /\ debug cfg = true.
Proof.
  intros Hb H. destruct (N.lt_ge_cases (len b) 4) as [L|L].
  { rewrite av_pair_de_stop in H by (unfold len in L; lia). discriminate. }
  destruct (N.lt_ge_cases 10 (u16_at b 0)) as [I|I].
  { rewrite av_pair_de_stop in H by lia. discriminate. }
  rewrite av_pair_de_at in H by assumption. destruct (_ <? _); [discriminate|].
  destruct (av_content_of _ _ _); try discriminate. destruct (debug cfg); [|discriminate]. injection H as <-. auto.
Qed.
Lemma C07_structures_lem : forall cfg b w, is_bytes b ->
  flags_de cfg b <> PPanic w /\ field_de b <> PPanic w /\ version_de b <> PPanic w /\ signature_de b <> PPanic w
  /\ filetime_de cfg b <> PPanic w /\ single_host_de b <> PPanic w /\ (forall n, buf_de n b <> PPanic w)
  /\ oem_de b <> PPanic w /\ unicode_de b <> PPanic w
  /\ av_id_de b <> PPanic w /\ av_flags_de b <> PPanic w /\ lm_challenge_de b <> PPanic w
  /\ (av_pair_de cfg b = PPanic w -> w = PDebugAssert /\ debug cfg = true)
  /\ (many0 (av_pair_de cfg) b = PPanic w -> w = PDebugAssert /\ debug cfg = true)
  /\ (nt_challenge_de cfg b = PPanic w -> w = PDebugAssert /\ debug cfg = true).
Proof.
  intros cfg b w Hb.
  split; [unfold flags_de, le_u32; np|]. split; [unfold field_de, le_u16, le_u32; np|].
  split; [unfold version_de, le_u8, le_u16, le_u24; np|]. split; [unfold signature_de, buf_de, le_u32; np|].
  split; [unfold filetime_de, le_u32; np; destruct (ft_to_system_time _ _); discriminate|].
  split; [unfold single_host_de, le_u32; np|]. split; [intros n; apply take_np|].
  split; [unfold oem_de, prest; np|].
  split; [destruct (C11_utf16_decode_total_lem b Hb) as (s & r & -> & _); discriminate|].
  split; [unfold av_id_de, le_u16; np|]. split; [unfold av_flags_de, le_u32; np|].
  split; [unfold lm_challenge_de, alt2, lmv1_de, lmv2_de, buf_de|].
  { match goal with |- match ?x with _ => _ end <> _ => assert (N : x <> PPanic w) by np; destruct x as [| [|n] | w'] end;
      try discriminate; [np|congruence]. }
  split; [now apply av_pair_panic|]. split.
  - intros H. destruct (walk_total cfg b) as [x Hx]. pose proof (many0_agrees _ _ _ Hb Hx) as A. rewrite H in A.
    destruct x; cbn [walk_agrees] in A; [discriminate|destruct A; discriminate|].
    split; [congruence|]. destruct (debug cfg) eqn:D; [reflexivity|]. now apply walk_release in Hx.
  - intros H. destruct (nt_total cfg b) as [x Hx]. pose proof (nt_agree _ _ _ Hb Hx) as A. rewrite H in A.
    inversion Hx; subst; cbn [nt_agrees] in A; try (destruct A; discriminate).
    split; [congruence|]. destruct (debug cfg) eqn:D; [reflexivity|]. now apply walk_release in H1.
Qed.
Example C07_structures_ex_lem : is_bytes [1; 0; 3; 0; 65; 0; 0]
  /\ av_pair_de cfg_debug [1; 0; 3; 0; 65; 0; 0] = PPanic PDebugAssert
  /\ nt_challenge_de cfg_debug ([1; 1] ++ repeat 0 26 ++ [1; 0; 3; 0; 65; 0; 0]) = PPanic PDebugAssert.
Proof. split; [closed_valid|]. split; vm_compute; reflexivity. Qed.

(** ** Decoded values are valid *)
Lemma text_says_plain b o v : is_bytes b -> text_says b o v -> valid_opt plain_string v.
Proof.
  intros Hb H. destruct v as [s|]; [|exact I]. destruct H as (_ & _ & ->). cbn.
  apply read_utf16_inv, field_data_bytes, Hb.
Qed.
Lemma inside_len b o : ~ outside b o -> field_len b o <> 0 -> len (field_data b o) = field_len b o.
Proof. intros H. apply field_data_len, outsideb_false, H. Qed.
Lemma field_len_u16 b o : is_bytes b -> field_len b o <= 65535.
Proof. intros H. pose proof (u16_at_u16 b o H). unfold field_len. unfold is_u16 in *. lia. Qed.
Lemma text_says_len b o v : is_bytes b -> text_says b o v -> len (content (opt_map utf16le v)) <= field_len b o.
Proof.
  intros Hb H. destruct v as [s|]; [|cbn; lia]. destruct H as (H1 & H2 & ->). cbn [opt_map content].
  destruct (read_utf16_inv (field_data b o) (field_data_bytes _ _ Hb)) as [_ H].
  pose proof (inside_len b o H2 H1) as Hl. rewrite H, len_app in Hl. lia.
Qed.
Lemma opt_version_valid b f o : is_bytes b ->
  valid_opt valid_version (opt_version_at b f o) /\ revision_ok f (opt_version_at b f o).
Proof.
  intros Hb. unfold opt_version_at. destruct (N.testbit f 25) eqn:E; [|split; [exact I|exact E]].
  split; [|split; [exact E|reflexivity]]. unfold version_at. cbn [valid_opt]. repeat split; cbn.
  - now apply byte_at_u8.
  - now apply byte_at_u8.
  - now apply u16_at_u16.
Qed.
Lemma sub_buffer b o n : is_bytes b -> o + N.of_nat n <= len b -> is_buffer n (sub b o (N.of_nat n)).
Proof.
  intros Hb H. split; [|now apply sub_bytes]. pose proof (sub_len b o (N.of_nat n) H) as Hl. unfold len in Hl. lia.
Qed.
(** Values read by the AV pair walker: valid, representable, not longer than the bytes they came from. *)
Lemma used_up_cases b a c : used_up b a = c -> c = VOk a \/ c = VLeft a.
Proof. unfold used_up. destruct (is_nil b); auto. Qed.
Lemma av_content_good cfg id v a : is_bytes v -> host_le cfg = true -> id <= 10 ->
  av_content_of cfg id v = VOk a \/ av_content_of cfg id v = VLeft a ->
  valid_av_pair a /\ carried_av cfg a /\ len (av_value cfg a) <= len v /\ av_code a = id.
Proof.
  intros Hb Hle Hid H.
  assert (Hs : forall k, av_string k v = VOk a \/ av_string k v = VLeft a -> a = k (fst (read_utf16 v))).
  { intros k [Hk|Hk]; apply used_up_cases in Hk; destruct Hk as [Hk|Hk]; congruence. }
  assert (Hu : forall r x, used_up r x = VOk a \/ used_up r x = VLeft a -> a = x).
  { intros r x [Hk|Hk]; apply used_up_cases in Hk; destruct Hk as [Hk|Hk]; congruence. }
  destruct (read_utf16_inv v Hb) as [Hp Hv].
  assert (Hl : len (utf16_host cfg (fst (read_utf16 v))) <= len v).
  { unfold utf16_host. rewrite Hle. rewrite Hv at 2. rewrite len_app. lia. }
  assert (C : id = 0 \/ id = 1 \/ id = 2 \/ id = 3 \/ id = 4 \/ id = 5 \/ id = 6 \/ id = 7 \/ id = 8 \/ id = 9 \/ id = 10) by lia.
  destruct C as [->|[->|[->|[->|[->|[->|[->|[->|[->|[->| ->]]]]]]]]]]; cbn [av_content_of] in H.
  - destruct (len v =? 0); [|destruct H; discriminate]. destruct H as [H|H]; [|discriminate].
    injection H as <-. cbn. repeat split; lia.
  - apply Hs in H as ->. repeat split; try apply Hp. exact Hl.
  - apply Hs in H as ->. repeat split; try apply Hp. exact Hl.
  - apply Hs in H as ->. repeat split; try apply Hp. exact Hl.
  - apply Hs in H as ->. repeat split; try apply Hp. exact Hl.
  - apply Hs in H as ->. repeat split; try apply Hp. exact Hl.
  - destruct ((4 <=? len v) && (u32_at v 0 <? 8)) eqn:E; [|destruct H; discriminate].
    apply Hu in H as ->. cbn [valid_av_pair carried_av av_value av_code]. rewrite len_le32. repeat split; lia.
  - destruct ((8 <=? len v) && _) eqn:E; [|destruct H; discriminate].
    apply Hu in H as ->. cbn [valid_av_pair carried_av av_value av_code].
    repeat split; try (now apply u32_at_u32).
    + intros Hw. rewrite Hw in E. cbn [negb orb] in E. unfold filetime_value. cbn [ft_high ft_low]. lia.
    + unfold filetime_bytes. rewrite len_app, !len_le32. lia.
  - destruct ((48 <=? len v) && _) eqn:E; [|destruct H; discriminate].
    apply Hu in H as ->. cbn [valid_av_pair carried_av av_value av_code].
    pose proof (sub_buffer v 8 8 Hb ltac:(lia)) as B1. pose proof (sub_buffer v 16 32 Hb ltac:(lia)) as B2.
    change (N.of_nat 8) with 8 in B1. change (N.of_nat 32) with 32 in B2.
    split; [|split; [reflexivity|split; [|reflexivity]]].
    + split; [now apply u32_at_u32|]. split; [reflexivity|]. split; assumption.
    + unfold single_host_bytes. cbn [sh_size sh_z4 sh_custom sh_machine]. rewrite !len_app, !len_le32.
      rewrite (len_buffer _ _ B1), (len_buffer _ _ B2). lia.
  - apply Hs in H as ->. repeat split; try apply Hp. exact Hl.
  - destruct (16 <=? len v) eqn:E; [|destruct H; discriminate].
    apply Hu in H as ->. cbn [valid_av_pair carried_av av_value av_code].
    pose proof (sub_buffer v 0 16 Hb ltac:(lia)) as B1. change (N.of_nat 16) with 16 in B1.
    split; [exact B1|]. split; [exact I|]. split; [|reflexivity].
    rewrite (len_buffer _ _ B1). lia.
Qed.
Lemma walk_good cfg b w : host_le cfg = true -> av_walk cfg b w -> is_bytes b -> forall l r, w = WList l r ->
  Forall valid_av_pair l /\ Forall (carried_av cfg) l /\ len (av_list_bytes cfg l) + len r <= len b.
Proof.
  intros Hle Hw. induction Hw as [b H|b H1 H2 H3|b H1 H2 H3 H4|b a H1 H2 H3 H4 H5|b a w H1 H2 H3 H4 Hw IH];
    intros Hb l r E; try discriminate.
  - injection E as <- <-. split; [constructor|split; [constructor|]]. cbn. lia.
  - injection E as <- <-. split; [constructor|split; [constructor|]]. cbn. lia.
  - destruct w as [l' r'| |]; try discriminate. cbn [wcons] in E. injection E as <- <-.
    destruct (IH (is_bytes_skipn _ _ Hb) _ _ eq_refl) as (I1 & I2 & I3).
    assert (G : valid_av_pair a /\ carried_av cfg a /\ len (av_value cfg a) <= len (sub b 4 (u16_at b 2)) /\ av_code a = u16_at b 0).
    { apply av_content_good; auto; [now apply sub_bytes|tauto]. }
    destruct G as (G1 & G2 & G3 & _). rewrite sub_len in G3 by lia.
    split; [constructor; assumption|]. split; [constructor; assumption|].
    cbn [av_list_bytes flat_map]. fold (av_list_bytes cfg l').
    rewrite len_app, av_bytes_len. unfold drop in *. 
    assert (HL : len (skipn (N.to_nat (4 + u16_at b 2)) b) = len b - (4 + u16_at b 2)) by apply drop_len.
    lia.
Qed.
Lemma infos_good cfg b o l : host_le cfg = true -> is_bytes b -> infos_say cfg b o l ->
  Forall valid_av_pair l /\ Forall (carried_av cfg) l /\ len (content (av_list_field cfg l)) <= 65535.
Proof.
  intros Hle Hb [[_ ->]|(H1 & H2 & r & H3)]; [split; [constructor|split; [constructor|cbn; lia]]|].
  destruct (walk_good _ _ _ Hle H3 (field_data_bytes b o Hb) _ _ eq_refl) as (G1 & G2 & G3).
  repeat split; auto. rewrite inside_len in G3 by assumption. pose proof (field_len_u16 b o Hb).
  destruct l; cbn [av_list_field content]; [cbn; lia|lia].
Qed.
Lemma fits_intro fs : (forall f, In f fs -> len (content f) <= 65535) -> fits fs.
Proof. intros H. apply Forall_forall, H. Qed.

(** ** C09, C10, C57 *)
Lemma negotiate_says_good b n : is_bytes b -> negotiate_says b n -> valid_negotiate n /\ carried_negotiate n.
Proof.
  intros Hb (Hh & Hf & Hd & Hw & Hv).
  assert (G : forall o v, oem_says b o v -> valid_opt is_string v /\ nonempty_opt v /\ len (content (opt_map utf8 v)) <= 65535).
  { intros o v H. destruct v as [s|]; [|repeat split; [discriminate|cbn; lia]].
    destruct H as (H1 & H2 & H3 & H4). cbn [valid_opt opt_map content].
    pose proof (inside_len b o H2 H1) as Hl. pose proof (field_len_u16 b o Hb).
    split; [exact H3|]. split; [|rewrite H4; lia].
    intros E. injection E as ->. cbn in H4. rewrite <- H4 in Hl. cbn in Hl. lia. }
  destruct (G _ _ Hd) as (D1 & D2 & D3). destruct (G _ _ Hw) as (W1 & W2 & W3).
  destruct (opt_version_valid b (u32_at b 12) 32 Hb) as [V1 V2]. rewrite <- Hv in V1, V2.
  split.
  - split; [rewrite Hf; now apply u32_at_u32|]. auto.
  - split; [|split; [assumption|split; [assumption|rewrite Hf; assumption]]].
    apply fits_intro. intros f [<-|[<-|[]]]; assumption.
Qed.
(** A decoded NEGOTIATE encodes without panic and decodes to the same message. *)
Lemma C09_reencode_negotiate_lem : forall cfg cfg' b r n, is_bytes b ->
  negotiate_de cfg b = POk r n ->
  exists b', serialize cfg' (negotiate_ser n) = Val b' /\ negotiate_de cfg' b' = POk [] n.
Proof.
  intros cfg cfg' b r n Hb H. apply C53_decoded_negotiate_lem in H as [_ H].
  destruct (negotiate_says_good b n Hb H) as [Hv Hc]. now apply C02_negotiate_round_trip_lem.
Qed.
Example C09_ex_lem : is_bytes (negotiate_bytes sample_negotiate ++ [1; 2; 3])
  /\ negotiate_de cfg_debug (negotiate_bytes sample_negotiate ++ [1; 2; 3]) = POk [] sample_negotiate.
Proof. split; [closed_valid|vm_compute; reflexivity]. Qed.

Lemma challenge_says_good cfg b c : host_le cfg = true -> is_bytes b -> challenge_says cfg b c ->
  valid_challenge c /\ sendable_challenge cfg c /\ valid_opt plain_string (ch_target_name c).
Proof.
  intros Hle Hb (Hh & Ht & Hf & Hs & Hi & He & Hv).
  pose proof (text_says_plain b _ _ Hb Ht) as T1. pose proof (text_says_len b _ _ Hb Ht) as T2.
  pose proof (field_len_u16 b 12 Hb).
  destruct (infos_good cfg b _ _ Hle Hb Hi) as (I1 & I2 & I3).
  destruct (opt_version_valid b (u32_at b 20) 48 Hb) as [V1 V2]. rewrite <- Hv in V1, V2.
  destruct Hh as (Hlen & _).
  split; [|split; [|exact T1]].
  - split; [destruct (ch_target_name c); [apply T1|exact I]|].
    split; [rewrite Hf; now apply u32_at_u32|]. split; [|auto].
    rewrite Hs. apply (sub_buffer b 24 8 Hb). lia.
  - split; [|split; [assumption|split; [assumption|rewrite Hf; assumption]]].
    apply fits_intro. intros f [<-|[<-|[]]]; [lia|assumption].
Qed.
Lemma seen_text_plain v : valid_opt plain_string v -> v <> Some [] -> seen_text v = v.
Proof.
  intros H Hn. apply seen_text_carried. destruct v as [s|]; [|exact I]. split; [exact H|]. intros ->. now apply Hn.
Qed.
(** A decoded CHALLENGE encodes without panic; what is decoded from that is the same
    message, except that a present but empty target name becomes an absent one. *)
Lemma C10_reencode_challenge_lem : forall cfg b r c, host_le cfg = true -> is_bytes b ->
  challenge_de cfg b = POk r c ->
  exists b', serialize cfg (challenge_ser cfg c) = Val b'
    /\ challenge_de cfg b' = POk [] (match ch_target_name c with
                                     | Some [] => mkChallenge None (ch_flags c) (ch_server_challenge c)
                                                    (ch_target_infos c) (ch_version c)
                                     | _ => c
                                     end).
Proof.
  intros cfg b r c Hle Hb H. apply C53_decoded_challenge_lem in H as [_ H]; [|exact Hb].
  destruct (challenge_says_good cfg b c Hle Hb H) as (Hv & Hc & Ht).
  exists (challenge_bytes cfg c). split.
  - rewrite challenge_serialize by exact Hv. destruct Hc as [Hf _]. apply fitsb_fits in Hf. now rewrite Hf.
  - rewrite <- (app_nil_r (challenge_bytes cfg c)), challenge_seen by assumption. f_equal.
    unfold seen_challenge. destruct (ch_target_name c) as [[|x s]|] eqn:E.
    + reflexivity.
    + rewrite seen_text_plain by (auto; discriminate). rewrite <- E. now destruct c.
    + cbn [seen_text]. rewrite <- E. now destruct c.
Qed.
Example C10_reencode_challenge_ex_lem : exists b c, is_bytes b /\ challenge_de cfg_debug b = POk [] c
  /\ ch_target_infos c = sample_infos /\ ch_target_name c = Some str_Server.
Proof.
  exists (challenge_bytes cfg_debug sample_challenge), sample_challenge.
  split; [closed_valid|]. split; [vm_compute; reflexivity|]. split; reflexivity.
Qed.
(** A CHALLENGE with a two-byte target name consisting of NUL. *)
Definition nul_name_challenge : bytes :=
  NTLMSSP ++ le32 2 ++ (le16 2 ++ le16 2 ++ le32 48) ++ le32 1 ++ repeat 7 8 ++ repeat 0 8
  ++ repeat 0 8 ++ [0; 0].
Lemma C10_reencode_challenge_refuted_lem :
  ~ (forall cfg b r c, host_le cfg = true -> is_bytes b -> challenge_de cfg b = POk r c ->
     exists b', serialize cfg (challenge_ser cfg c) = Val b' /\ challenge_de cfg b' = POk [] c).
Proof.
  intros H.
  destruct (H cfg_release nul_name_challenge [] (mkChallenge (Some []) 1 (repeat 7 8) [] None)) as (b' & H1 & H2).
  - reflexivity.
  - closed_valid.
  - vm_compute. reflexivity.
  - vm_compute in H1. injection H1 as <-. vm_compute in H2. discriminate H2.
Qed.

Lemma nt_read_good cfg v c : host_le cfg = true -> is_bytes v -> nt_read cfg v (NtOk c) ->
  valid_nt c /\ carried_nt cfg c /\ len (nt_bytes cfg c) <= len v.
Proof.
  intros Hle Hb H. inversion H as [l r Hh Hw| | |Hh Hl|]; subst.
  - destruct (walk_good _ _ _ Hle Hw (is_bytes_skipn _ _ Hb) _ _ eq_refl) as (G1 & G2 & G3).
    assert (HL : len (skipn 28 v) = len v - 28) by (apply (drop_len 28)).
    unfold ntv2_header in Hh. rewrite !andb_true_iff in Hh. destruct Hh as [[[Hh1 Hh2] Hh3] Hh4].
    pose proof (sub_buffer v 16 8 Hb ltac:(lia)) as B1. change (N.of_nat 8) with 8 in B1.
    cbn [valid_nt carried_nt nt_timestamp nt_client_challenge nt_target_infos].
    split; [|split].
    + split; [split; now apply u32_at_u32|]. split; assumption.
    + split; [|assumption]. intros W. rewrite W in Hh3. cbn [negb orb] in Hh3. unfold filetime_value. cbn [ft_high ft_low]. lia.
    + cbn [nt_bytes]. unfold ntv2_bytes, filetime_bytes. cbn [nt_timestamp nt_client_challenge nt_target_infos].
      rewrite !len_app, !len_le32, (len_buffer _ _ B1), !len_cons, len_nil. lia.
  - pose proof (sub_buffer v 0 24 Hb ltac:(lia)) as B1. change (N.of_nat 24) with 24 in B1.
    split; [exact B1|]. split; [exact I|]. cbn [nt_bytes]. rewrite (len_buffer _ _ B1). lia.
Qed.
Lemma authenticate_says_good cfg b a : host_le cfg = true -> is_bytes b -> authenticate_says cfg b a ->
  valid_authenticate a /\ sendable_authenticate cfg a
  /\ valid_opt plain_string (a_domain a) /\ valid_opt plain_string (a_user a) /\ valid_opt plain_string (a_workstation a)
  /\ valid_opt (carried_lm (a_flags a)) (a_lm a) /\ (a_session_key a <> None -> N.testbit (a_flags a) 30 = true).
Proof.
  intros Hle Hb (Hh & Hlm & Hnt & Hd & Hu & Hw & Hk & Hf & Hv & Hm & He).
  pose proof (text_says_plain b _ _ Hb Hd) as D1. pose proof (text_says_len b _ _ Hb Hd) as D2.
  pose proof (text_says_plain b _ _ Hb Hu) as U1. pose proof (text_says_len b _ _ Hb Hu) as U2.
  pose proof (text_says_plain b _ _ Hb Hw) as W1. pose proof (text_says_len b _ _ Hb Hw) as W2.
  pose proof (field_len_u16 b 28 Hb). pose proof (field_len_u16 b 36 Hb). pose proof (field_len_u16 b 44 Hb).
  pose proof (field_len_u16 b 20 Hb).
  destruct (opt_version_valid b (u32_at b 60) 64 Hb) as [V1 V2]. rewrite <- Hv in V1, V2.
  destruct Hh as (Hlen & _ & _ & Hmic).
  assert (LM : valid_opt valid_lm (a_lm a) /\ valid_opt (carried_lm (a_flags a)) (a_lm a)).
  { destruct Hlm as [Hn Hlm]. destruct (a_lm a) as [c|]; [|split; exact I]. destruct Hlm as [Hl ->].
    assert (HI : field_off b 12 + field_len b 12 <= len b) by (unfold outside in Hn; lia).
    rewrite Hf. unfold valid_opt. destruct (N.testbit (u32_at b 60) 9) eqn:E; (split; [|exact E]).
    - apply (sub_buffer b _ 24 Hb). lia.
    - split; [apply (sub_buffer b _ 16 Hb)|apply (sub_buffer b _ 8 Hb)]; lia. }
  assert (NT : valid_opt valid_nt (a_nt a) /\ valid_opt (carried_nt cfg) (a_nt a)
               /\ len (content (opt_map (nt_bytes cfg) (a_nt a))) <= 65535).
  { destruct (a_nt a) as [c|]; [|repeat split; cbn; lia]. destruct Hnt as (H1' & H2' & H3').
    destruct (nt_read_good cfg _ c Hle (field_data_bytes b 20 Hb) H3') as (G1 & G2 & G3).
    rewrite inside_len in G3 by assumption. cbn [valid_opt opt_map content]. repeat split; auto. lia. }
  assert (K : valid_opt (is_buffer 16) (a_session_key a) /\ (a_session_key a <> None -> N.testbit (a_flags a) 30 = true)).
  { destruct (a_session_key a) as [k|]; [|split; [exact I|congruence]]. destruct Hk as (K1 & K2 & K3 & ->).
    assert (HI : field_off b 52 + field_len b 52 <= len b) by (unfold outside in K3; lia).
    split; [apply (sub_buffer b _ 16 Hb); lia|]. rewrite Hf. auto. }
  destruct LM as [L1 L2]. destruct NT as (T1 & T2 & T3). destruct K as [K1 K2].
  assert (S : forall v, valid_opt plain_string v -> valid_opt is_string v).
  { intros [s|] Hs; [apply Hs|exact I]. }
  split; [|split; [|auto 10]].
  - unfold valid_authenticate. split; [exact L1|]. split; [exact T1|]. split; [auto|]. split; [auto|]. split; [auto|].
    split; [exact K1|]. split; [rewrite Hf; now apply u32_at_u32|]. split; [exact V1|]. split.
    + rewrite Hm. apply (sub_buffer b _ 16 Hb). exact Hmic.
    + rewrite He. exact I.
  - split; [|split; [exact T2|rewrite Hf; exact V2]].
    apply fits_intro. intros f [<-|[<-|[<-|[<-|[<-|[<-|[]]]]]]]; try lia.
    + destruct (a_lm a) as [c|]; [|cbn; lia]. cbn [opt_map content]. unfold len. rewrite lm_bytes_length by exact L1. lia.
    + destruct (a_session_key a) as [k|]; [|cbn; lia]. cbn [content]. rewrite (len_buffer _ _ K1). lia.
Qed.
Lemma seen_text_no_empty v : valid_opt plain_string v -> seen_text v = no_empty v.
Proof.
  intros H. destruct v as [[|x s]|]; [reflexivity| |reflexivity]. cbn [no_empty]. apply seen_text_plain; [exact H|discriminate].
Qed.
(** A decoded AUTHENTICATE encodes without panic; what is decoded from that is the same
    message, except that present but empty names become absent. *)
Lemma C54_reencode_authenticate_lem : forall cfg b r a, host_le cfg = true -> is_bytes b ->
  authenticate_de cfg b = POk r a ->
  exists b', serialize cfg (authenticate_ser cfg a) = Val b'
    /\ authenticate_de cfg b' = POk [] (mkAuthenticate (a_lm a) (a_nt a) (no_empty (a_domain a))
         (no_empty (a_user a)) (no_empty (a_workstation a)) (a_session_key a) (a_flags a)
         (a_version a) (a_mic a) (a_exported_key a)).
Proof.
  intros cfg b r a Hle Hb H. apply C53_decoded_authenticate_lem in H as [_ H]; [|exact Hb].
  pose proof (authenticate_says_good cfg b a Hle Hb H) as (Hv & Hc & Hd & Hu & Hw & Hlm & Hk).
  exists (authenticate_bytes cfg a). split.
  - rewrite authenticate_serialize by exact Hv. destruct Hc as [Hf _]. apply fitsb_fits in Hf. now rewrite Hf.
  - rewrite <- (app_nil_r (authenticate_bytes cfg a)), authenticate_seen by assumption. f_equal.
    unfold seen_authenticate. rewrite !seen_text_no_empty by assumption. f_equal.
    + destruct Hv as [Hl _]. destruct (a_lm a) as [[x|x y]|]; [| |reflexivity]; cbn [opt_map valid_opt carried_lm valid_lm] in *;
        unfold seen_lm; rewrite Hlm; cbn [lm_bytes]; [reflexivity|].
      destruct Hl as [[Hl _] _]. rewrite firstn_app_exact, skipn_app_exact by (symmetry; exact Hl). reflexivity.
    + destruct (N.testbit (a_flags a) 30); [reflexivity|]. destruct (a_session_key a); [|reflexivity].
      discriminate Hk. discriminate.
    + destruct H as (_ & _ & _ & _ & _ & _ & _ & _ & _ & _ & He). now rewrite He.
Qed.
Example C54_ex_lem : exists b a, is_bytes b /\ authenticate_de cfg_debug b = POk [] a
  /\ a_user a = Some str_User /\ a_nt a = Some (NtV2 sample_ntv2).
Proof.
  eexists (authenticate_bytes cfg_debug sample_authenticate), _.
  split; [closed_valid|]. split; [vm_compute; reflexivity|]. split; reflexivity.
Qed.

(** ** C19 *)
Lemma C19_target_infos_end_with_eol_lem : forall cfg b r c,
  challenge_de cfg b = POk r c ->
  ch_target_infos c = [] \/ exists l, ch_target_infos c = l ++ [AvEOL].
Proof.
  intros cfg b r c H. rewrite challenge_de_spec in H. destruct (challenge_headerb cfg b); [|discriminate].
  destruct (unicode_field b 12); try discriminate. cbn [pbind] in H.
  destruct (infos_field cfg b 40) as [r2 l| |]; try discriminate. cbn [pbind] in H.
  destruct (last_is_not_eol l) eqn:El; [discriminate|]. injection H as _ <-. now apply eol_inv.
Qed.
Example C19_ex_lem : exists b c, challenge_de cfg_debug b = POk [] c /\ length (ch_target_infos c) = 7%nat.
Proof. exists (challenge_bytes cfg_debug sample_challenge), sample_challenge. split; vm_compute; reflexivity. Qed.

(** ** C21 *)
Lemma C21_message_types_lem : forall cfg b,
  (forall r n, negotiate_de cfg b = POk r n -> is_message 1 b)
  /\ (forall r c, challenge_de cfg b = POk r c -> is_message 2 b)
  /\ (forall r a, authenticate_de cfg b = POk r a -> is_message 3 b).
Proof.
  intros cfg b. split; [|split].
  - intros r n H. rewrite negotiate_de_spec in H. destruct (negotiate_headerb b) eqn:E; [|discriminate].
    apply negotiate_headerb_spec in E. apply E.
  - intros r n H. rewrite challenge_de_spec in H. destruct (challenge_headerb cfg b) eqn:E; [|discriminate].
    apply challenge_headerb_spec in E. apply E.
  - intros r n H. rewrite authenticate_de_spec in H. destruct (authenticate_headerb b) eqn:E; [|discriminate].
    apply authenticate_headerb_spec in E. apply E.
Qed.
(** A message of another type is rejected with an error, never accepted, never a panic. *)
Lemma C21_types_exclusive_lem : forall cfg b ty, is_message ty b ->
  (ty <> 1 -> negotiate_de cfg b = PErr EError)
  /\ (ty <> 2 -> challenge_de cfg b = PErr EError)
  /\ (ty <> 3 -> authenticate_de cfg b = PErr EError).
Proof.
  intros cfg b ty [_ Ht]. split; [|split]; intros Hn.
  - rewrite negotiate_de_spec. destruct (negotiate_headerb b) eqn:E; [|reflexivity].
    apply negotiate_headerb_spec in E as (_ & [_ E] & _). congruence.
  - rewrite challenge_de_spec. destruct (challenge_headerb cfg b) eqn:E; [|reflexivity].
    apply challenge_headerb_spec in E as (_ & [_ E] & _). congruence.
  - rewrite authenticate_de_spec. destruct (authenticate_headerb b) eqn:E; [|reflexivity].
    apply authenticate_headerb_spec in E as (_ & [_ E] & _). congruence.
Qed.
(** Encoded messages carry the signature and their own type. *)
Lemma is_message_intro ty b : ty < 4294967296 -> is_message ty (NTLMSSP ++ le32 ty ++ b).
Proof. intros H. split; [reflexivity|]. change 8 with (len NTLMSSP). now apply u32_at_le32. Qed.
Lemma C21_encoded_types_lem : forall cfg b,
  (forall n, valid_negotiate n -> serialize cfg (negotiate_ser n) = Val b -> is_message 1 b)
  /\ (forall c, valid_challenge c -> serialize cfg (challenge_ser cfg c) = Val b -> is_message 2 b)
  /\ (forall a, valid_authenticate a -> serialize cfg (authenticate_ser cfg a) = Val b -> is_message 3 b).
Proof.
  intros cfg b. split; [|split]; intros x Hv H;
    [rewrite negotiate_serialize in H by exact Hv|rewrite challenge_serialize in H by exact Hv|rewrite authenticate_serialize in H by exact Hv];
    destruct (fitsb _); try discriminate; injection H as <-; now apply is_message_intro.
Qed.
Example C21_ex_lem : exists b, serialize cfg_debug (challenge_ser cfg_debug sample_challenge) = Val b
  /\ is_message 2 b /\ negotiate_de cfg_debug b = PErr EError.
Proof. eexists. split; [vm_compute; reflexivity|]. split; [split; reflexivity|reflexivity]. Qed.

(** ** C41 *)
Lemma C41_lenient_authenticate_lem : forall cfg b r a, is_bytes b -> authenticate_de cfg b = POk r a ->
  (forall x, a_lm a = Some (LmV1 x) -> N.testbit (a_flags a) 9 = true)
  /\ (forall x y, a_lm a = Some (LmV2 x y) -> N.testbit (a_flags a) 9 = false)
  /\ (a_lm a = None <-> field_len b 12 < 24)
  /\ (forall k, a_session_key a = Some k -> N.testbit (a_flags a) 30 = true)
  /\ (N.testbit (a_flags a) 30 = false -> a_session_key a = None)
  /\ a_exported_key a = None.
Proof.
  intros cfg b r a Hb H. apply C53_decoded_authenticate_lem in H as [_ H]; [|exact Hb].
  destruct H as (Hh & [_ Hlm] & Hnt & Hd & Hu & Hw & Hk & Hf & Hv & Hm & He). rewrite Hf.
  split; [|split; [|split; [|split; [|split; [|exact He]]]]].
  - intros x E. rewrite E in Hlm. destruct Hlm as [_ Hlm]. destruct (N.testbit (u32_at b 60) 9); [reflexivity|discriminate].
  - intros x y E. rewrite E in Hlm. destruct Hlm as [_ Hlm]. destruct (N.testbit (u32_at b 60) 9); [discriminate|reflexivity].
  - destruct (a_lm a); split; intros; try discriminate; try lia; auto.
  - intros k E. rewrite E in Hk. apply Hk.
  - intros E. destruct (a_session_key a); [|reflexivity]. destruct Hk as [Hk _]. congruence.
Qed.
(** An AUTHENTICATE whose LM response has 5 bytes, and whose flags announce no key. *)
Definition short_lm : bytes :=
  NTLMSSP ++ le32 3 ++ (le16 5 ++ le16 5 ++ le32 80) ++ repeat 0 32 ++ (le16 3 ++ le16 3 ++ le32 80)
  ++ le32 1 ++ repeat 0 16 ++ repeat 1 5.
Example C41_ex_lem : is_bytes short_lm /\ exists a, authenticate_de cfg_debug short_lm = POk [] a
  /\ a_lm a = None /\ a_session_key a = None.
Proof. split; [closed_valid|]. eexists. split; [vm_compute; reflexivity|split; reflexivity]. Qed.

(** ** C43 *)
Lemma u16_at_app_l b t i : i + 2 <= len b -> u16_at (b ++ t) i = u16_at b i.
Proof. intros H. unfold u16_at. now rewrite !byte_at_app_l by lia. Qed.
Lemma u32_at_app_l b t i : i + 4 <= len b -> u32_at (b ++ t) i = u32_at b i.
Proof. intros H. unfold u32_at. now rewrite !u16_at_app_l by lia. Qed.
Section Trailing.
Variables (b t : bytes) (o : N).
Hypothesis Ho : o + 8 <= len b.
Lemma field_len_app : field_len (b ++ t) o = field_len b o.
Proof. apply u16_at_app_l. lia. Qed.
Lemma field_off_app : field_off (b ++ t) o = field_off b o.
Proof. apply u32_at_app_l. lia. Qed.
Lemma inside_app : ~ outside b o -> ~ outside (b ++ t) o.
Proof. unfold outside. rewrite field_len_app, field_off_app, len_app. lia. Qed.
Lemma field_data_app : ~ outside b o -> field_len b o <> 0 -> field_data (b ++ t) o = field_data b o.
Proof.
  intros H1 H2. unfold field_data. rewrite field_len_app, field_off_app. apply sub_app_l. unfold outside in H1. lia.
Qed.
Lemma oem_says_app v : oem_says b o v -> oem_says (b ++ t) o v.
Proof.
  unfold oem_says. rewrite field_len_app. destruct v; [|auto]. intros (H1 & H2 & H3 & H4).
  rewrite field_data_app by assumption. auto using inside_app.
Qed.
Lemma text_says_app v : text_says b o v -> text_says (b ++ t) o v.
Proof.
  unfold text_says. rewrite field_len_app. destruct v; [|auto]. intros (H1 & H2 & H3).
  rewrite field_data_app by assumption. auto using inside_app.
Qed.
Lemma infos_say_app cfg l : infos_say cfg b o l -> infos_say cfg (b ++ t) o l.
Proof.
  unfold infos_say. rewrite field_len_app. intros [H|(H1 & H2 & H3)]; [auto|right].
  rewrite field_data_app by assumption. auto using inside_app.
Qed.
Lemma lm_says_app v1 v : lm_says b o v1 v -> lm_says (b ++ t) o v1 v.
Proof.
  unfold lm_says. rewrite field_len_app, field_off_app. intros [H1 H2]. split; [now apply inside_app|].
  destruct v as [c|]; [|exact H2]. destruct H2 as [H2 ->]. split; [exact H2|].
  unfold outside in H1. rewrite !sub_app_l by lia. reflexivity.
Qed.
Lemma nt_says_app cfg v : nt_says cfg b o v -> nt_says cfg (b ++ t) o v.
Proof.
  unfold nt_says. rewrite field_len_app. destruct v; [|auto]. intros (H1 & H2 & H3).
  rewrite field_data_app by assumption. auto using inside_app.
Qed.
Lemma key_says_app c v : key_says b o c v -> key_says (b ++ t) o c v.
Proof.
  unfold key_says. rewrite field_len_app, field_off_app. destruct v; [|auto]. intros (H1 & H2 & H3 & ->).
  pose proof H3 as H3'. unfold outside in H3'. rewrite sub_app_l by lia. auto using inside_app.
Qed.
End Trailing.
Lemma version_app b t f o : o <= len b -> opt_version_ok b f o = true ->
  opt_version_ok (b ++ t) f o = true /\ opt_version_at (b ++ t) f o = opt_version_at b f o.
Proof.
  intros Ho H. unfold opt_version_ok, opt_version_at in *. destruct (N.testbit f 25); [|auto].
  unfold version_ok in *. assert (o + 8 <= len b) by lia. rewrite len_app.
  rewrite !byte_at_app_l by lia. split; [lia|].
  unfold version_at. now rewrite !byte_at_app_l, u16_at_app_l by lia.
Qed.
Lemma is_message_app ty b t : 12 <= len b -> is_message ty b -> is_message ty (b ++ t).
Proof. intros H [H1 H2]. split; [rewrite sub_app_l by lia; exact H1|rewrite u32_at_app_l by lia; exact H2]. Qed.
(** Appending bytes to an accepted message changes nothing. *)
Lemma C43_trailing_bytes_lem : forall cfg b t, is_bytes b -> is_bytes t ->
  (forall n, negotiate_de cfg b = POk [] n -> negotiate_de cfg (b ++ t) = POk [] n)
  /\ (forall c, challenge_de cfg b = POk [] c -> challenge_de cfg (b ++ t) = POk [] c)
  /\ (forall a, authenticate_de cfg b = POk [] a -> authenticate_de cfg (b ++ t) = POk [] a).
Proof.
  intros cfg b t Hb Ht. assert (Hbt : is_bytes (b ++ t)) by (apply is_bytes_app; auto).
  split; [|split].
  - intros n H. apply C53_decoded_negotiate_lem in H as [_ H]. apply C53_decoded_negotiate_lem. split; [reflexivity|].
    destruct H as ((Hl & Hm & Hvo) & Hf & Hd & Hw & Hv). unfold negotiate_says, negotiate_header.
    rewrite !(u32_at_app_l b t 12) by lia. destruct (version_app b t (u32_at b 12) 32 ltac:(lia) Hvo) as [V1 V2].
    rewrite V2, len_app. split; [split; [lia|split; [apply is_message_app; [lia|exact Hm]|exact V1]]|].
    split; [exact Hf|]. split; [apply oem_says_app; [lia|exact Hd]|]. split; [apply oem_says_app; [lia|exact Hw]|exact Hv].
  - intros c H. apply C53_decoded_challenge_lem in H as [_ H]; [|exact Hb]. apply C53_decoded_challenge_lem; [exact Hbt|]. split; [reflexivity|].
    destruct H as ((Hl & Hm & Hvo & Hst) & Htn & Hf & Hs & Hi & He & Hv). unfold challenge_says, challenge_header.
    rewrite !(u32_at_app_l b t 20) by lia. destruct (version_app b t (u32_at b 20) 48 ltac:(lia) Hvo) as [V1 V2].
    rewrite V2, len_app, !sub_app_l by lia.
    split; [split; [lia|split; [apply is_message_app; [lia|exact Hm]|split; [exact V1|exact Hst]]]|].
    split; [apply text_says_app; [lia|exact Htn]|]. split; [exact Hf|]. split; [exact Hs|].
    split; [apply infos_say_app; [lia|exact Hi]|]. split; [exact He|exact Hv].
  - intros a H. apply C53_decoded_authenticate_lem in H as [_ H]; [|exact Hb]. apply C53_decoded_authenticate_lem; [exact Hbt|]. split; [reflexivity|].
    destruct H as ((Hl & Hm & Hvo & Hmo) & Hlm & Hnt & Hd & Hu & Hw & Hk & Hf & Hv & Hmic & He).
    unfold authenticate_says, authenticate_header.
    assert (Emo : authenticate_mic_off (b ++ t) = authenticate_mic_off b).
    { unfold authenticate_mic_off. now rewrite u32_at_app_l by lia. }
    rewrite !(u32_at_app_l b t 60) by lia. destruct (version_app b t (u32_at b 60) 64 ltac:(lia) Hvo) as [V1 V2].
    rewrite V2, len_app, Emo, sub_app_l by lia.
    split; [split; [lia|split; [apply is_message_app; [lia|exact Hm]|split; [exact V1|lia]]]|].
    split; [apply lm_says_app; [lia|exact Hlm]|]. split; [apply nt_says_app; [lia|exact Hnt]|].
    split; [apply text_says_app; [lia|exact Hd]|]. split; [apply text_says_app; [lia|exact Hu]|].
    split; [apply text_says_app; [lia|exact Hw]|]. split; [apply key_says_app; [lia|exact Hk]|]. auto.
Qed.
Example C43_ex_lem : is_bytes (challenge_bytes cfg_debug sample_challenge)
  /\ challenge_de cfg_debug (challenge_bytes cfg_debug sample_challenge) = POk [] sample_challenge.
Proof. split; [closed_valid|vm_compute; reflexivity]. Qed.

(** ** C44 *)
Lemma C44_short_inputs_lem : forall cfg b,
  (len b < 32 -> negotiate_de cfg b = PErr EError)
  /\ (len b < 48 -> challenge_de cfg b = PErr EError)
  /\ (len b < 80 -> authenticate_de cfg b = PErr EError).
Proof.
  intros cfg b. split; [|split]; intros H.
  - rewrite negotiate_de_spec. destruct (negotiate_headerb b) eqn:E; [|reflexivity].
    apply negotiate_headerb_spec in E as [E _]. lia.
  - rewrite challenge_de_spec. destruct (challenge_headerb cfg b) eqn:E; [|reflexivity].
    apply challenge_headerb_spec in E as [E _]. lia.
  - rewrite authenticate_de_spec. destruct (authenticate_headerb b) eqn:E; [|reflexivity].
    apply authenticate_headerb_spec in E as (_ & _ & _ & E). unfold authenticate_mic_off in E.
    destruct (N.testbit (u32_at b 60) 25); lia.
Qed.
(** The bounds are exact. *)
Example C44_ex_lem :
  (exists n, negotiate_de cfg_debug (NTLMSSP ++ le32 1 ++ le32 1 ++ repeat 0 16) = POk [] n)
  /\ negotiate_de cfg_debug (NTLMSSP ++ le32 1 ++ le32 1 ++ repeat 0 15) = PErr EError
  /\ (exists n, challenge_de cfg_debug (NTLMSSP ++ le32 2 ++ repeat 0 36) = POk [] n)
  /\ (exists n, authenticate_de cfg_debug (NTLMSSP ++ le32 3 ++ repeat 0 68) = POk [] n).
Proof. split; [|split; [|split]]; try (eexists; vm_compute; reflexivity). Qed.

(** ** C45 *)
Lemma C45_version_try_from_lem : forall b, length b = 8%nat ->
  version_try_from b =
  Val (if (byte_at b 4 =? 0) && (byte_at b 5 =? 0) && (byte_at b 6 =? 0) && (byte_at b 7 =? 15)
       then Some (mkVersion (byte_at b 0) (byte_at b 1) (u16_at b 2) 15) else None).
Proof.
  intros b H. unfold version_try_from. rewrite <- (drop_0 b) at 1. rewrite version_de_at.
  unfold version_ok, version_at. change (0 + 4) with 4. change (0 + 5) with 5. change (0 + 6) with 6. change (0 + 7) with 7.
  change (0 + 1) with 1. change (0 + 2) with 2.
  replace (0 + 8 <=? len b) with true by (unfold len; rewrite H; reflexivity). cbn [andb].
  destruct (_ && _ && _ && _); reflexivity.
Qed.
Lemma C45_version_from_round_trip_lem : forall cfg major minor build,
  is_u8 major -> is_u8 minor -> is_u16 build ->
  let b := [major; minor; build mod 256; build / 256; 0; 0; 0; 15] in
  serialize cfg (version_ser (version_from major minor build)) = Val b
  /\ version_try_from b = Val (Some (mkVersion major minor build 15)).
Proof.
  intros cfg ma mi bu H1 H2 H3 b.
  assert (E : version_bytes (version_from ma mi bu) = b).
  { unfold version_from, version_bytes, b, le16. unfold is_u16 in H3. cbn [v_major v_minor v_build v_revision app].
    unfold is_u8 in H1, H2. rewrite (N.mod_small (bu / 256) 256), (N.mod_small ma), (N.mod_small mi) by lia. reflexivity. }
  split; [rewrite <- E; apply writes_serialize, writes_version|].
  rewrite <- E. unfold version_try_from. rewrite <- (app_nil_r (version_bytes _)), version_de_ok; [reflexivity| |reflexivity].
  repeat split; assumption.
Qed.
Example C45_ex_lem : version_try_from [10; 0; 99; 69; 0; 0; 0; 15] = Val (Some sample_version)
  /\ version_try_from [10; 0; 99; 69; 0; 0; 0; 14] = Val None
  /\ version_try_from [10; 0; 99; 69; 1; 0; 0; 15] = Val None.
Proof. repeat split. Qed.

(** ** C55: release builds decode whatever debug builds decode *)
Lemma av_content_release cfg id v : av_content_of (release cfg) id v = av_content_of cfg id v.
Proof. reflexivity. Qed.
Lemma walk_to_release cfg b w : av_walk cfg b w -> w <> WPanic -> av_walk (release cfg) b w.
Proof.
  induction 1 as [b H|b H1 H2 H3|b H1 H2 H3 H4|b a H1 H2 H3 H4 H5|b a w H1 H2 H3 H4 Hw IH]; intros Hn.
  - now apply walk_stop.
  - now apply walk_reject.
  - apply walk_bad; auto.
  - congruence.
  - apply walk_next; auto.
    + rewrite av_content_release. destruct H4 as [H4|[H4 _]]; auto.
    + apply IH. intros ->. now apply Hn.
Qed.
Lemma nt_to_release cfg v w : nt_read cfg v w -> w <> NtPanic -> nt_read (release cfg) v w.
Proof.
  intros H Hn. destruct H as [l r H Hw|H Hw|H Hw|H Hl|H Hl].
  - apply nt_v2 with r; [exact H|]. apply walk_to_release; [exact Hw|discriminate].
  - apply nt_v2_reject; [exact H|]. apply walk_to_release; [exact Hw|discriminate].
  - congruence.
  - now apply nt_v1.
  - now apply nt_short.
Qed.
Lemma C55_release_accepts_debug_lem : forall cfg b, is_bytes b ->
  (forall r n, negotiate_de cfg b = POk r n -> negotiate_de (release cfg) b = POk r n)
  /\ (forall r c, challenge_de cfg b = POk r c -> challenge_de (release cfg) b = POk r c)
  /\ (forall r a, authenticate_de cfg b = POk r a -> authenticate_de (release cfg) b = POk r a).
Proof.
  intros cfg b Hb. split; [|split]; intros r x H.
  - apply C53_decoded_negotiate_lem in H. now apply C53_decoded_negotiate_lem.
  - apply C53_decoded_challenge_lem in H; [|exact Hb]. apply C53_decoded_challenge_lem; [exact Hb|].
    destruct H as [-> H]. split; [reflexivity|]. destruct H as (Hh & Ht & Hf & Hs & Hi & He & Hv).
    split; [exact Hh|]. split; [exact Ht|]. split; [exact Hf|]. split; [exact Hs|]. split; [|split; [exact He|exact Hv]].
    destruct Hi as [Hi|(H1 & H2 & r' & H3)]; [now left|right]. split; [exact H1|]. split; [exact H2|].
    exists r'. apply walk_to_release; [exact H3|discriminate].
  - apply C53_decoded_authenticate_lem in H; [|exact Hb]. apply C53_decoded_authenticate_lem; [exact Hb|].
    destruct H as [-> H]. split; [reflexivity|]. destruct H as (Hh & Hlm & Hnt & H).
    split; [exact Hh|]. split; [exact Hlm|]. split; [|exact H].
    destruct (a_nt x) as [c|]; [|exact Hnt]. destruct Hnt as (H1 & H2 & H3). split; [exact H1|]. split; [exact H2|].
    apply nt_to_release; [exact H3|discriminate].
Qed.
Example C55_ex_lem : release cfg_debug = cfg_release
  /\ challenge_de cfg_debug (challenge_bytes cfg_debug sample_challenge) = POk [] sample_challenge.
Proof. split; [reflexivity|vm_compute; reflexivity]. Qed.
