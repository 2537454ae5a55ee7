(** Facts about messages that arrive cut short. *)
From Coq Require Import ZifyBool ZifyNat ZifyN.
From Verif Require Import Base Nom Unicode Wire Structures Prims Messages Spec SpecStream Lib Encode Decode RoundTrip Parse Samples FactsEncode FactsDecode.

Ltac Zify.zify_post_hook ::= Z.div_mod_to_equations.

Section Cut.
Context (p t : bytes).
Let b := p ++ t.

(** A field of the whole message seen from the beginning [p]. *)
Definition cut_field {A} (o : N) (x : pres A) : pres A :=
  if field_end b o <=? len p then x else PPanic PSlice.

Lemma outsideb_cut o : o + 8 <= len p -> outsideb p o = negb (field_end b o <=? len p).
Proof.
  intros H. unfold outsideb, field_end, b. rewrite field_len_app, field_off_app by exact H.
  destruct (field_len p o =? 0) eqn:E; lia.
Qed.
Lemma field_data_cut o : o + 8 <= len p -> field_end b o <= len p -> field_len p o <> 0 -> field_data b o = field_data p o.
Proof.
  intros H1 H2 H3. apply field_data_app; [exact H1| |exact H3]. apply outsideb_false. rewrite outsideb_cut by exact H1. lia.
Qed.
Lemma outside_whole o : field_end b o <= len p -> outsideb b o = false.
Proof. unfold field_end, outsideb, b. rewrite len_app. destruct (_ =? 0) eqn:E; lia. Qed.
Ltac cut o H :=
  rewrite (outsideb_cut o H); unfold cut_field;
  replace (field_len b o) with (field_len p o) by (unfold b; now rewrite field_len_app);
  destruct (field_len p o =? 0) eqn:E0;
  [unfold field_end; replace (field_len b o) with (field_len p o) by (unfold b; now rewrite field_len_app); rewrite E0; now destruct (len p)|];
  destruct (field_end b o <=? len p) eqn:E1; cbn [negb]; [|reflexivity];
  rewrite (outside_whole o) by lia.
Lemma oem_field_cut o : o + 8 <= len p -> oem_field p o = cut_field o (oem_field b o).
Proof. intros H. unfold oem_field. cut o H. rewrite (field_data_cut o) by lia. reflexivity. Qed.
Lemma unicode_field_cut o : o + 8 <= len p -> unicode_field p o = cut_field o (unicode_field b o).
Proof. intros H. unfold unicode_field. cut o H. rewrite (field_data_cut o) by lia. reflexivity. Qed.
Lemma infos_field_cut cfg o : o + 8 <= len p -> infos_field cfg p o = cut_field o (infos_field cfg b o).
Proof. intros H. unfold infos_field. cut o H. rewrite (field_data_cut o) by lia. reflexivity. Qed.
Lemma nt_field_cut cfg o : o + 8 <= len p -> nt_field cfg p o = cut_field o (nt_field cfg b o).
Proof. intros H. unfold nt_field. cut o H. rewrite (field_data_cut o) by lia. reflexivity. Qed.
Lemma inside_sum o : o + 8 <= len p -> field_len p o <> 0 -> field_end b o <= len p -> field_off p o + field_len p o <= len p.
Proof. intros H. unfold field_end, b. rewrite field_len_app, field_off_app by exact H. destruct (_ =? 0) eqn:E; lia. Qed.
Lemma lm_field_cut o v1 : o + 8 <= len p -> lm_field p o v1 = cut_field o (lm_field b o v1).
Proof.
  intros H. unfold lm_field. cut o H. destruct (field_len p o <? 24) eqn:E2; [reflexivity|].
  pose proof (inside_sum o H ltac:(lia) ltac:(lia)) as S.
  unfold b at 1 2 3. rewrite field_off_app by exact H. unfold b. rewrite field_off_app by exact H. now rewrite !sub_app_l by lia.
Qed.
Lemma key_field_cut o : o + 8 <= len p -> key_field_res p o true = cut_field o (key_field_res b o true).
Proof.
  intros H. unfold key_field_res. cut o H. destruct (field_len p o <? 16) eqn:E2; [reflexivity|].
  pose proof (inside_sum o H ltac:(lia) ltac:(lia)) as S.
  unfold b. rewrite field_off_app by exact H. now rewrite !sub_app_l by lia.
Qed.
End Cut.

Lemma version_cut p t f o : opt_version_ok (p ++ t) f o = true -> o <= len p ->
  opt_version_ok p f o = ((o + if N.testbit f 25 then 8 else 0) <=? len p)
  /\ (o + (if N.testbit f 25 then 8 else 0) <= len p -> opt_version_at (p ++ t) f o = opt_version_at p f o).
Proof.
  unfold opt_version_ok, opt_version_at. destruct (N.testbit f 25); intros V L.
  2:{ split; [lia|reflexivity]. }
  unfold version_ok in *. destruct (o + 8 <=? len p) eqn:E.
  - rewrite !byte_at_app_l in V by lia. split; [lia|]. intros _. unfold version_at. now rewrite !byte_at_app_l, u16_at_app_l by lia.
  - split; [reflexivity|lia].
Qed.
Lemma is_message_cut ty p t : 12 <= len p -> is_message ty (p ++ t) -> is_message ty p.
Proof. intros H [H1 H2]. rewrite sub_app_l in H1 by lia. rewrite u32_at_app_l in H2 by lia. now split. Qed.

(** Each beginning [p] of a NEGOTIATE that decodes: an error if the fixed part is cut, a panic if a field is, and
    the whole message if nothing but unused bytes is cut. *)
Lemma C82_negotiate_lem : forall cfg p t r n, negotiate_de cfg (p ++ t) = POk r n ->
  negotiate_de cfg p = cut_at p (fixed_negotiate (p ++ t)) (negotiate_end (p ++ t)) n.
Proof.
  intros cfg p t r n H. rewrite negotiate_de_spec in *. destruct (negotiate_headerb (p ++ t)) eqn:Hh; [|discriminate].
  apply negotiate_headerb_spec in Hh as (L & M & V). unfold cut_at.
  destruct (len p <? fixed_negotiate (p ++ t)) eqn:F.
  - replace (negotiate_headerb p) with false; [reflexivity|]. symmetry. apply not_true_iff_false. rewrite negotiate_headerb_spec.
    intros (L' & _ & V'). unfold fixed_negotiate in F. rewrite u32_at_app_l in * by lia.
    destruct (version_cut p t (u32_at p 12) 32 V L') as [Vc _]. rewrite Vc in V'. destruct (N.testbit (u32_at p 12) 25); lia.
  - assert (L' : 32 <= len p) by (unfold fixed_negotiate in F; destruct (N.testbit (u32_at (p ++ t) 12) 25); lia).
    unfold fixed_negotiate in F. rewrite u32_at_app_l in * by lia.
    destruct (version_cut p t (u32_at p 12) 32 V L') as [Vc Va].
    replace (negotiate_headerb p) with true.
    2:{ symmetry. apply negotiate_headerb_spec. split; [exact L'|]. split; [eapply is_message_cut; [lia|exact M]|].
        rewrite Vc. destruct (N.testbit (u32_at p 12) 25); lia. }
    rewrite (oem_field_cut p t 16), (oem_field_cut p t 24) by lia.
    destruct (oem_field (p ++ t) 16) as [r1 d| |]; try discriminate. cbn [pbind] in H.
    destruct (oem_field (p ++ t) 24) as [r2 w| |]; try discriminate. cbn [pbind] in H.
    injection H as <- <-. rewrite Va by (destruct (N.testbit (u32_at p 12) 25); lia). unfold cut_field, negotiate_end, fixed_negotiate. cbn [map latest fold_right].
    rewrite u32_at_app_l by lia.
    destruct (field_end (p ++ t) 16 <=? len p) eqn:E1; cbn [pbind].
    2:{ now replace (len p <? _) with true by lia. }
    destruct (field_end (p ++ t) 24 <=? len p) eqn:E2; cbn [pbind].
    2:{ now replace (len p <? _) with true by lia. }
    replace (len p <? _) with false; [reflexivity|]. destruct (N.testbit (u32_at p 12) 25); lia.
Qed.
(** The same of CHALLENGE. *)
Lemma C82_challenge_lem : forall cfg p t r c, challenge_de cfg (p ++ t) = POk r c ->
  challenge_de cfg p = cut_at p (fixed_challenge (p ++ t)) (challenge_end (p ++ t)) c.
Proof.
  intros cfg p t r c H. rewrite challenge_de_spec in *. destruct (challenge_headerb cfg (p ++ t)) eqn:Hh; [|discriminate].
  apply challenge_headerb_spec in Hh as (L & M & V & S). unfold cut_at.
  destruct (len p <? fixed_challenge (p ++ t)) eqn:F.
  - replace (challenge_headerb cfg p) with false; [reflexivity|]. symmetry. apply not_true_iff_false. rewrite challenge_headerb_spec.
    intros (L' & _ & V' & _). unfold fixed_challenge in F. rewrite u32_at_app_l in * by lia.
    destruct (version_cut p t (u32_at p 20) 48 V L') as [Vc _]. rewrite Vc in V'. destruct (N.testbit (u32_at p 20) 25); lia.
  - assert (L' : 48 <= len p) by (unfold fixed_challenge in F; destruct (N.testbit (u32_at (p ++ t) 20) 25); lia).
    unfold fixed_challenge in F. rewrite u32_at_app_l in * by lia. rewrite !sub_app_l in * by lia.
    destruct (version_cut p t (u32_at p 20) 48 V L') as [Vc Va].
    replace (challenge_headerb cfg p) with true.
    2:{ symmetry. apply challenge_headerb_spec. split; [exact L'|]. split; [eapply is_message_cut; [lia|exact M]|].
        split; [|exact S]. rewrite Vc. destruct (N.testbit (u32_at p 20) 25); lia. }
    rewrite (unicode_field_cut p t 12), (infos_field_cut p t cfg 40) by lia.
    destruct (unicode_field (p ++ t) 12) as [r1 d| |]; try discriminate. cbn [pbind] in H.
    destruct (infos_field cfg (p ++ t) 40) as [r2 w| |]; try discriminate. cbn [pbind] in H.
    destruct (last_is_not_eol w) eqn:El; [discriminate|].
    injection H as <- <-. rewrite Va by (destruct (N.testbit (u32_at p 20) 25); lia). unfold cut_field, challenge_end, fixed_challenge. cbn [map latest fold_right].
    rewrite u32_at_app_l by lia.
    destruct (field_end (p ++ t) 12 <=? len p) eqn:E1; cbn [pbind].
    2:{ now replace (len p <? _) with true by lia. }
    destruct (field_end (p ++ t) 40 <=? len p) eqn:E2; cbn [pbind].
    2:{ now replace (len p <? _) with true by lia. }
    rewrite El. replace (len p <? _) with false; [reflexivity|]. destruct (N.testbit (u32_at p 20) 25); lia.
Qed.
(** The same of AUTHENTICATE. *)
Lemma C82_authenticate_lem : forall cfg p t r a, authenticate_de cfg (p ++ t) = POk r a ->
  authenticate_de cfg p = cut_at p (fixed_authenticate (p ++ t)) (authenticate_end (p ++ t)) a.
Proof.
  intros cfg p t r a H. rewrite authenticate_de_spec in *. destruct (authenticate_headerb (p ++ t)) eqn:Hh; [|discriminate].
  apply authenticate_headerb_spec in Hh as (L & M & V & S). unfold cut_at.
  assert (K : 64 <= len p -> authenticate_mic_off (p ++ t) = authenticate_mic_off p).
  { intros L'. unfold authenticate_mic_off. now rewrite u32_at_app_l by lia. }
  destruct (len p <? fixed_authenticate (p ++ t)) eqn:F.
  - replace (authenticate_headerb p) with false; [reflexivity|]. symmetry. apply not_true_iff_false. rewrite authenticate_headerb_spec.
    intros (L' & _ & V' & S'). unfold fixed_authenticate, authenticate_mic_off in *. rewrite u32_at_app_l in * by lia.
    destruct (version_cut p t (u32_at p 60) 64 V L') as [Vc _]. rewrite Vc in V'. destruct (N.testbit (u32_at p 60) 25); lia.
  - assert (L' : 64 <= len p) by (unfold fixed_authenticate in F; destruct (N.testbit (u32_at (p ++ t) 60) 25); lia). specialize (K L').
    unfold fixed_authenticate in F. rewrite u32_at_app_l in * by lia. rewrite K in *.
    destruct (version_cut p t (u32_at p 60) 64 V L') as [Vc Va].
    assert (Hm : authenticate_mic_off p + 16 <= len p) by (unfold authenticate_mic_off; destruct (N.testbit (u32_at p 60) 25); lia).
    replace (authenticate_headerb p) with true.
    2:{ symmetry. apply authenticate_headerb_spec. split; [exact L'|]. split; [eapply is_message_cut; [lia|exact M]|].
        split; [|exact Hm]. rewrite Vc. destruct (N.testbit (u32_at p 60) 25); lia. }
    unfold authenticate_body in *. cbv zeta in *. rewrite u32_at_app_l in * by lia. rewrite K in H.
    rewrite (lm_field_cut p t 12), (nt_field_cut p t cfg 20), (unicode_field_cut p t 28), (unicode_field_cut p t 36),
      (unicode_field_cut p t 44) by lia.
    destruct (lm_field (p ++ t) 12 _) as [r1 lm| |]; try discriminate. cbn [pbind] in H.
    destruct (nt_field cfg (p ++ t) 20) as [r2 nt| |]; try discriminate. cbn [pbind] in H.
    destruct (unicode_field (p ++ t) 28) as [r3 d| |]; try discriminate. cbn [pbind] in H.
    destruct (unicode_field (p ++ t) 36) as [r4 u| |]; try discriminate. cbn [pbind] in H.
    destruct (unicode_field (p ++ t) 44) as [r5 w| |]; try discriminate. cbn [pbind] in H.
    unfold authenticate_end, fixed_authenticate. rewrite u32_at_app_l by lia.
    assert (V' : opt_version_at (p ++ t) (u32_at p 60) 64 = opt_version_at p (u32_at p 60) 64) by (apply Va; destruct (N.testbit (u32_at p 60) 25); lia).
    rewrite V' in H. rewrite sub_app_l in H by exact Hm.
    destruct (N.testbit (u32_at p 60) 30).
    + rewrite (key_field_cut p t 52) by lia.
      destruct (key_field_res (p ++ t) 52 true) as [r6 k| |]; try discriminate. cbn [pbind] in H.
      injection H as <- <-. unfold cut_field. cbn [map app latest fold_right].
      destruct (field_end (p ++ t) 12 <=? len p) eqn:E1; cbn [pbind]; [|now replace (len p <? _) with true by lia].
      destruct (field_end (p ++ t) 20 <=? len p) eqn:E2; cbn [pbind]; [|now replace (len p <? _) with true by lia].
      destruct (field_end (p ++ t) 28 <=? len p) eqn:E3; cbn [pbind]; [|now replace (len p <? _) with true by lia].
      destruct (field_end (p ++ t) 36 <=? len p) eqn:E4; cbn [pbind]; [|now replace (len p <? _) with true by lia].
      destruct (field_end (p ++ t) 44 <=? len p) eqn:E5; cbn [pbind]; [|now replace (len p <? _) with true by lia].
      destruct (field_end (p ++ t) 52 <=? len p) eqn:E6; cbn [pbind]; [|now replace (len p <? _) with true by lia].
      replace (len p <? _) with false; [reflexivity|]. destruct (N.testbit (u32_at p 60) 25); lia.
    + unfold key_field_res in *. cbn [pbind] in H. injection H as <- <-. unfold cut_field. cbn [map app latest fold_right].
      destruct (field_end (p ++ t) 12 <=? len p) eqn:E1; cbn [pbind]; [|now replace (len p <? _) with true by lia].
      destruct (field_end (p ++ t) 20 <=? len p) eqn:E2; cbn [pbind]; [|now replace (len p <? _) with true by lia].
      destruct (field_end (p ++ t) 28 <=? len p) eqn:E3; cbn [pbind]; [|now replace (len p <? _) with true by lia].
      destruct (field_end (p ++ t) 36 <=? len p) eqn:E4; cbn [pbind]; [|now replace (len p <? _) with true by lia].
      destruct (field_end (p ++ t) 44 <=? len p) eqn:E5; cbn [pbind]; [|now replace (len p <? _) with true by lia].
      replace (len p <? _) with false; [reflexivity|]. destruct (N.testbit (u32_at p 60) 25); lia.
Qed.

Lemma cut_at_ok {A} p x y (m m' : A) r : cut_at p x y m = POk r m' -> x <= len p /\ y <= len p.
Proof. unfold cut_at. destruct (len p <? x) eqn:E1; [discriminate|]. destruct (len p <? y) eqn:E2; [discriminate|]. lia. Qed.
Lemma negotiate_end_le cfg p r n : negotiate_de cfg p = POk r n -> 32 <= len p /\ negotiate_end p <= len p.
Proof.
  intros H. pose proof H as H'. rewrite <- (app_nil_r p) in H'. apply C82_negotiate_lem in H'. rewrite app_nil_r in H'.
  rewrite H in H'. symmetry in H'. apply cut_at_ok in H'. unfold fixed_negotiate in H'. destruct (N.testbit (u32_at p 12) 25); lia.
Qed.
Lemma challenge_end_le cfg p r n : challenge_de cfg p = POk r n -> 48 <= len p /\ challenge_end p <= len p.
Proof.
  intros H. pose proof H as H'. rewrite <- (app_nil_r p) in H'. apply C82_challenge_lem in H'. rewrite app_nil_r in H'.
  rewrite H in H'. symmetry in H'. apply cut_at_ok in H'. unfold fixed_challenge in H'. destruct (N.testbit (u32_at p 20) 25); lia.
Qed.
Lemma authenticate_end_le cfg p r n : authenticate_de cfg p = POk r n -> 64 <= len p /\ authenticate_end p <= len p.
Proof.
  intros H. pose proof H as H'. rewrite <- (app_nil_r p) in H'. apply C82_authenticate_lem in H'. rewrite app_nil_r in H'.
  rewrite H in H'. symmetry in H'. apply cut_at_ok in H'. unfold fixed_authenticate in H'. destruct (N.testbit (u32_at p 60) 25); lia.
Qed.
Lemma field_end_app p t o : o + 8 <= len p -> field_end (p ++ t) o = field_end p o.
Proof. intros H. unfold field_end. now rewrite field_len_app, field_off_app by exact H. Qed.
Lemma laid_out_end b fs : forall s, laid_out b s fs -> len b <= N.max s (latest (map (field_end b) (map fst fs))).
Proof.
  induction fs as [|[o f] fs IH]; intros s.
  - cbn [laid_out map latest fold_right]. lia.
  - cbn [laid_out map latest fold_right fst]. intros [H1 H2]. apply IH in H2. unfold latest in H2.
    destruct f as [x|]; cbn [content] in H2; [|change (len []) with 0 in H2; lia].
    destruct H1 as (E1 & _ & E2 & _). unfold field_end at 1. rewrite E1, E2. destruct (len x =? 0) eqn:E; lia.
Qed.
Lemma len_app_nil (p t : bytes) : len (p ++ t) <= len p -> t = [].
Proof. rewrite len_app. intros H. destruct t; [reflexivity|]. unfold len in H. cbn [length] in H. lia. Qed.

(** No message as the crate writes it (a version only with its flag, a session key only with its flag) can be cut
    anywhere and still decode. *)
Lemma C82_no_beginning_decodes_lem : forall cfg p t, t <> [] ->
  (forall n r m, valid_negotiate n -> (n_version n <> None -> N.testbit (n_flags n) 25 = true) ->
     serialize cfg (negotiate_ser n) = Val (p ++ t) -> negotiate_de cfg p <> POk r m)
  /\ (forall c r m, valid_challenge c -> (ch_version c <> None -> N.testbit (ch_flags c) 25 = true) ->
     serialize cfg (challenge_ser cfg c) = Val (p ++ t) -> challenge_de cfg p <> POk r m)
  /\ (forall a r m, valid_authenticate a -> (a_version a <> None -> N.testbit (a_flags a) 25 = true) ->
     (a_session_key a <> None -> N.testbit (a_flags a) 30 = true) ->
     serialize cfg (authenticate_ser cfg a) = Val (p ++ t) -> authenticate_de cfg p <> POk r m).
Proof.
  intros cfg p t Ht. split; [|split].
  - intros n r m V F S D. apply Ht, (len_app_nil p). destruct (negotiate_end_le _ _ _ _ D) as [L E].
    destruct (C20_field_layout_lem cfg) as [LO _]. specialize (LO n _ V S). apply laid_out_end in LO.
    assert (Fl : u32_at (p ++ t) 12 = n_flags n).
    { rewrite negotiate_serialize in S by exact V. destruct (fitsb _); [|discriminate]. injection S as S. rewrite <- S.
      apply (u32_at_le32 (NTLMSSP ++ le32 1)). apply V. }
    revert LO. cbn [map fst latest fold_right]. revert E. unfold negotiate_end, fixed_negotiate. cbn [map latest fold_right].
    rewrite !field_end_app by lia. rewrite u32_at_app_l in Fl by lia. rewrite Fl.
    destruct (n_version n); [rewrite F by discriminate|destruct (N.testbit (n_flags n) 25)]; lia.
  - intros c r m V F S D. apply Ht, (len_app_nil p). destruct (challenge_end_le _ _ _ _ D) as [L E].
    destruct (C20_field_layout_lem cfg) as [_ [LO _]]. specialize (LO c _ V S). apply laid_out_end in LO.
    assert (Fl : u32_at (p ++ t) 20 = ch_flags c).
    { rewrite challenge_serialize in S by exact V. destruct (fitsb _); [|discriminate]. injection S as S. rewrite <- S.
      unfold challenge_bytes. cbv zeta. set (d := nth 0 (descriptors _ _) []).
      assert (Ld : len d = 8) by (unfold d, challenge_fields; cbn [descriptors nth]; apply len_descriptor).
      replace 20 with (len (NTLMSSP ++ le32 2 ++ d)) by (rewrite !len_app, Ld; reflexivity).
      rewrite (app_assoc NTLMSSP), (app_assoc (NTLMSSP ++ le32 2)), <- (app_assoc NTLMSSP). apply u32_at_le32. apply V. }
    revert LO. cbn [map fst latest fold_right]. revert E. unfold challenge_end, fixed_challenge. cbn [map latest fold_right].
    rewrite !field_end_app by lia. rewrite u32_at_app_l in Fl by lia. rewrite Fl.
    destruct (ch_version c); [rewrite F by discriminate|destruct (N.testbit (ch_flags c) 25)]; lia.
  - intros a r m V F K S D. apply Ht, (len_app_nil p). destruct (authenticate_end_le _ _ _ _ D) as [L E].
    destruct (C20_field_layout_lem cfg) as [_ [_ LO]]. specialize (LO a _ V S). pose proof LO as LO'. apply laid_out_end in LO.
    assert (Fl : u32_at (p ++ t) 60 = a_flags a).
    { rewrite authenticate_serialize in S by exact V. destruct (fitsb _); [|discriminate]. injection S as S. rewrite <- S.
      unfold authenticate_bytes. cbv zeta. set (d := concat (descriptors _ _)).
      assert (Ld : len d = 48) by (unfold d, authenticate_fields; cbn [descriptors concat]; rewrite !len_app, !len_descriptor; reflexivity).
      replace 60 with (len (NTLMSSP ++ le32 3 ++ d)) by (rewrite !len_app, Ld; reflexivity).
      rewrite (app_assoc NTLMSSP), (app_assoc (NTLMSSP ++ le32 3)), <- (app_assoc NTLMSSP). apply u32_at_le32. apply V. }
    assert (K52 : N.testbit (a_flags a) 30 = false -> field_end (p ++ t) 52 = 0).
    { intros Z. destruct (a_session_key a) as [k|] eqn:Ek; [rewrite K in Z by discriminate; discriminate|].
      cbn [laid_out] in LO'. destruct LO' as (_ & _ & _ & _ & _ & LO' & _). unfold field_end, field_len.
      replace (u16_at (p ++ t) 52) with 0; [reflexivity|].
      apply (sub_cons_eq (p ++ t) 52 7) in LO' as [B0 LO']; [|rewrite len_app; lia].
      apply (sub_cons_eq (p ++ t) 53 6) in LO' as [B1 _]; [|rewrite len_app; lia].
      unfold u16_at. change (52 + 1) with 53. rewrite B0, B1. reflexivity. }
    revert LO. cbn [map fst latest fold_right]. revert E. unfold authenticate_end, fixed_authenticate.
    rewrite u32_at_app_l in Fl by lia. rewrite Fl.
    destruct (N.testbit (a_flags a) 30) eqn:Z; cbn [map app latest fold_right];
      [|specialize (K52 eq_refl)];
      rewrite !field_end_app in * by lia;
      (destruct (a_version a); [rewrite F by discriminate|destruct (N.testbit (a_flags a) 25)]); lia.
Qed.
(** 20 of the bytes of an encoded NEGOTIATE are an error, all but one a panic, all of them and junk the message;
    a message with unused bytes at its end does without them. *)
Example C82_ex_lem :
  let b := negotiate_bytes sample_negotiate in
  negotiate_de cfg_debug b = POk [] sample_negotiate
  /\ negotiate_end b = len b /\ fixed_negotiate b = 40
  /\ negotiate_de cfg_debug (firstn 20 b) = PErr EError
  /\ negotiate_de cfg_debug (removelast b) = PPanic PSlice
  /\ negotiate_end (b ++ [1; 2; 3]) = len b
  /\ (exists a, authenticate_de cfg_debug (authenticate_bytes cfg_debug sample_authenticate) = POk [] a)
  /\ (exists c, challenge_de cfg_debug (challenge_bytes cfg_debug sample_challenge) = POk [] c).
Proof. vm_compute. repeat (split; [reflexivity|]). split; eexists; reflexivity. Qed.
