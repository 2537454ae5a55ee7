(** Facts about the three messages under a MIC. *)
From Coq Require Import ZifyBool ZifyNat ZifyN.
From Verif Require Import Base Nom Unicode Wire Structures Prims Messages Crypto Client Spec SpecBuild SpecCrypto SpecClient Lib Encode Decode RoundTrip Parse Samples FactsEncode FactsDecode FactsBuild DesKey RealPrims FactsCrypto SamplesClient History Reply FactsClient FactsReply Inject FactsInject SamplesTamper.

Ltac Zify.zify_post_hook ::= Z.div_mod_to_equations.

(** ** Messages followed by another one *)
Lemma descriptors_offset fs : forall fs' off off', length fs = length fs' -> fits fs -> fits fs' ->
  0 < off -> 0 < off' -> off + 65535 * len fs < 4294967296 -> off' + 65535 * len fs < 4294967296 ->
  descriptors off fs = descriptors off' fs' -> off = off' \/ contents fs = [].
Proof.
  induction fs as [|f fs IH]; intros [|f' fs'] off off' L F F' O O' B B' E; try discriminate L; [now right|].
  cbn [descriptors] in E. injection E as E1 E2. apply Forall_cons_iff in F as [F1 F]. apply Forall_cons_iff in F' as [F1' F'].
  rewrite len_cons in B, B'.
  assert (S : same_shape f f') by (eapply descriptor_shape; try exact E1; auto; lia).
  destruct f as [x|], f' as [y|]; try (now destruct S).
  - left. cbn [descriptor] in E1. apply app_inj in E1 as [_ E1]; [|reflexivity]. apply app_inj in E1 as [_ E1]; [|reflexivity].
    apply le32_inj in E1; unfold is_u32; lia.
  - cbn [content] in *. rewrite !len_nil, !N.add_0_r in E2. injection L as L.
    destruct (IH fs' off off' L F F' O O' ltac:(lia) ltac:(lia) E2) as [K|K]; [now left|right]. exact K.
Qed.
(** A version is not the start of a message. *)
Lemma version_not_signature v r r' : version_bytes v ++ r <> NTLMSSP ++ r'.
Proof. unfold version_bytes, NTLMSSP, le16. cbn. intros H. discriminate H. Qed.
Lemma payload_then v w fs fs' r r' off off' : Forall2 same_shape fs fs' -> valid_opt valid_version v -> valid_opt valid_version w ->
  (off + len (opt_version_bytes v) = off' + len (opt_version_bytes w) \/ contents fs = []) -> off = off' ->
  opt_version_bytes v ++ contents fs ++ NTLMSSP ++ r = opt_version_bytes w ++ contents fs' ++ NTLMSSP ++ r' ->
  v = w /\ fs = fs' /\ r = r'.
Proof.
  intros S H K O <- E. assert (X : length (opt_version_bytes v) = length (opt_version_bytes w)).
  { destruct O as [O|O]; [unfold len in O; lia|].
    assert (O' : contents fs' = []).
    { apply length_zero_iff_nil. rewrite <- (contents_shape_length _ _ S), O. reflexivity. }
    rewrite O, O' in E. cbn [app] in E.
    destruct v as [v|], w as [w|]; cbn [opt_version_bytes app] in *; try reflexivity; exfalso.
    - now apply version_not_signature in E.
    - symmetry in E. now apply version_not_signature in E. }
  apply app_inj in E as [E1 E]; [|exact X]. apply opt_version_inj in E1; auto.
  destruct (contents_shape _ _ _ _ S E) as [E2 E3]. apply app_inv_head in E3. auto.
Qed.
Lemma negotiate_then n m r r' : valid_negotiate n -> valid_negotiate m ->
  fits (negotiate_fields n) -> fits (negotiate_fields m) ->
  negotiate_bytes n ++ NTLMSSP ++ r = negotiate_bytes m ++ NTLMSSP ++ r' -> n = m /\ r = r'.
Proof.
  intros (V1 & V2 & V3 & V4) (W1 & W2 & W3 & W4) F F' E. unfold negotiate_bytes in E. rewrite <- !app_assoc in E.
  apply app_inv_head in E. apply app_inv_head in E. apply app_inj in E as [E1 E]; [|reflexivity].
  apply le32_inj in E1; auto.
  apply concat_inj in E as [E2 E]; [|now rewrite !descriptors_length|apply descriptors_8|apply descriptors_8].
  pose proof (opt_version_len (n_version n)) as L1. pose proof (opt_version_len (n_version m)) as L2.
  pose proof E2 as E2'. apply descriptors_shape in E2; auto.
  2-5: change (len (negotiate_fields n)) with 2; lia.
  apply descriptors_offset in E2'; auto.
  2-5: change (len (negotiate_fields n)) with 2; lia.
  destruct (payload_then _ _ _ _ _ _ 32 32 E2 V4 W4 E2' eq_refl E) as (E3 & E4 & E5).
  unfold negotiate_fields in E4. injection E4 as E4 E6.
  apply (opt_map_inj utf8 is_string) in E4; auto using utf8_inj. apply (opt_map_inj utf8 is_string) in E6; auto using utf8_inj.
  split; [|exact E5]. destruct n, m; cbn in *. now subst.
Qed.
Lemma challenge_then cfg c d r r' : valid_challenge c -> valid_challenge d ->
  fits (challenge_fields cfg c) -> fits (challenge_fields cfg d) ->
  challenge_bytes cfg c ++ NTLMSSP ++ r = challenge_bytes cfg d ++ NTLMSSP ++ r' -> c = d /\ r = r'.
Proof.
  intros (V1 & V2 & [V3 _] & V4 & V5) (W1 & W2 & [W3 _] & W4 & W5) F F' E. unfold challenge_bytes in E. rewrite <- !app_assoc in E.
  apply app_inv_head in E. apply app_inv_head in E.
  apply app_inj in E as [D1 E]; [|cbn [nth descriptors challenge_fields]; now rewrite !descriptor_length].
  apply app_inj in E as [E1 E]; [|reflexivity]. apply le32_inj in E1; auto.
  apply app_inj in E as [E2 E]; [|congruence]. apply app_inv_head in E.
  apply app_inj in E as [D2 E]; [|cbn [nth descriptors challenge_fields]; now rewrite !descriptor_length].
  pose proof (opt_version_len (ch_version c)) as L1. pose proof (opt_version_len (ch_version d)) as L2.
  assert (DD : descriptors (48 + len (opt_version_bytes (ch_version c))) (challenge_fields cfg c)
             = descriptors (48 + len (opt_version_bytes (ch_version d))) (challenge_fields cfg d)).
  { unfold challenge_fields in *. cbn [descriptors nth] in *. now rewrite D1, D2. }
  pose proof DD as DO. apply descriptors_shape in DD; auto.
  2-5: change (len (challenge_fields cfg c)) with 2; lia.
  apply descriptors_offset in DO; auto.
  2-5: change (len (challenge_fields cfg c)) with 2; lia.
  destruct (payload_then _ _ _ _ _ _ 48 48 DD V5 W5 DO eq_refl E) as (E3 & E4 & E5).
  unfold fits, challenge_fields in *. apply Forall_cons_iff in F as [_ F]. apply Forall_cons_iff in F' as [_ F'].
  apply Forall_cons_iff in F as [F _]. apply Forall_cons_iff in F' as [F' _].
  injection E4 as E4 E6.
  apply (opt_map_inj utf16le is_string) in E4; auto using utf16le_inj.
  assert (E7 : ch_target_infos c = ch_target_infos d).
  { destruct (ch_target_infos c), (ch_target_infos d); cbn [av_list_field content] in *; try discriminate E6; [reflexivity|].
    apply (f_equal content) in E6. cbn [content] in E6. apply (av_list_bytes_inj cfg); auto using av_fit. }
  split; [|exact E5]. destruct c, d; cbn in *. now subst.
Qed.
Lemma three_messages cfg n c a n' c' a' : valid_negotiate n -> valid_negotiate n' -> valid_challenge c -> valid_challenge c' ->
  fits (negotiate_fields n) -> fits (negotiate_fields n') -> fits (challenge_fields cfg c) -> fits (challenge_fields cfg c') ->
  negotiate_bytes n ++ challenge_bytes cfg c ++ authenticate_bytes cfg a
    = negotiate_bytes n' ++ challenge_bytes cfg c' ++ authenticate_bytes cfg a' ->
  n = n' /\ c = c' /\ authenticate_bytes cfg a = authenticate_bytes cfg a'.
Proof.
  intros V V' W W' F F' G G' E.
  assert (X : forall c, exists x, challenge_bytes cfg c = NTLMSSP ++ x) by (intros; eexists; reflexivity).
  assert (Y : forall a, exists x, authenticate_bytes cfg a = NTLMSSP ++ x) by (intros; eexists; reflexivity).
  pose proof E as E0. destruct (X c) as [x Ex], (X c') as [x' Ex']. rewrite Ex, Ex', <- !app_assoc in E0.
  apply negotiate_then in E0 as [<- _]; auto. apply app_inv_head in E.
  pose proof E as E1. destruct (Y a) as [y Ey], (Y a') as [y' Ey']. rewrite Ey, Ey' in E1.
  apply challenge_then in E1 as [<- _]; auto. now apply app_inv_head in E.
Qed.

(** ** C97 *)
(** The encodings of the three messages, one after another, can be split in one way only. *)
Lemma C97_split_lem : forall cfg n c a n' c' a' x y z x' y' z',
  valid_negotiate n -> valid_negotiate n' -> valid_challenge c -> valid_challenge c' -> valid_authenticate a -> valid_authenticate a' ->
  serialize cfg (negotiate_ser n) = Val x -> serialize cfg (negotiate_ser n') = Val x' ->
  serialize cfg (challenge_ser cfg c) = Val y -> serialize cfg (challenge_ser cfg c') = Val y' ->
  serialize cfg (authenticate_ser cfg a) = Val z -> serialize cfg (authenticate_ser cfg a') = Val z' ->
  x ++ y ++ z = x' ++ y' ++ z' -> n = n' /\ c = c' /\ z = z'.
Proof.
  intros cfg n c a n' c' a' x y z x' y' z' V V' W W' U U' S1 S1' S2 S2' S3 S3' E.
  rewrite negotiate_serialize in S1, S1' by assumption. rewrite challenge_serialize in S2, S2' by assumption.
  rewrite authenticate_serialize in S3, S3' by assumption.
  destruct (fitsb (negotiate_fields n)) eqn:F1; [|discriminate S1]. destruct (fitsb (negotiate_fields n')) eqn:F1'; [|discriminate S1'].
  destruct (fitsb (challenge_fields cfg c)) eqn:F2; [|discriminate S2]. destruct (fitsb (challenge_fields cfg c')) eqn:F2'; [|discriminate S2'].
  destruct (fitsb (authenticate_fields cfg a)) eqn:F3; [|discriminate S3]. destruct (fitsb (authenticate_fields cfg a')) eqn:F3'; [|discriminate S3'].
  apply fitsb_fits in F1, F1', F2, F2'. apply val_inj in S1, S1', S2, S2', S3, S3'. subst. now apply three_messages.
Qed.
(** Equal MICs under one key, for two arbitrary handshakes of two arbitrary
    clients: they sent the same NEGOTIATE, accepted the same challenge and
    their replies agree on responses, names and encrypted key -- or the two
    inputs of the MIC, of which the NEGOTIATE messages and challenges are the
    first parts, are a collision of HMAC-MD5. *)
Lemma mic_draft cfg P e level user dom pw target c h ch r b K nb :
  made cfg P e level user dom pw target c -> 3 <= level ->
  concludes cfg P c h ch r b K -> answer cfg P c h OpNegociate = OutBytes nb ->
  exists a, nb = negotiate_bytes (neg_message level dom) /\ valid_negotiate (neg_message level dom)
    /\ fits (negotiate_fields (neg_message level dom)) /\ valid_challenge ch /\ fits (challenge_fields cfg ch)
    /\ sub b 64 16 = p_hmac_md5 P K (nb ++ challenge_bytes cfg ch ++ authenticate_bytes cfg a)
    /\ (forall o, In o [12; 20; 28; 36; 52] -> field_data (authenticate_bytes cfg a) o = field_data b o).
Proof.
  intros M L C Hnb.
  pose proof (made_workstation_exists _ _ _ _ _ _ _ _ _ M) as Hw.
  pose proof (concludes_replies _ _ _ _ _ _ _ _ _ _ _ _ _ _ M C) as H.
  destruct (replies_v2 _ _ _ _ _ _ _ _ _ _ _ H L Hw) as (HP & Hv & Hr & N & RF & t & T1 & T2 & V & F & Eb).
  pose proof (concludes_v2 _ _ _ _ _ _ _ _ _ _ _ _ _ _ _ M L T1 C) as EK.
  set (k2 := ntowfv2 cfg P user (ntowfv1 cfg P pw) dom) in *.
  set (a := v2_message cfg P k2 user dom (cl_workstation c) (neg_message level dom) ch r t) in *.
  destruct (v2_by_offset _ _ _ _ _ _ _ _ _ _ V F) as (H1 & H2 & H3 & H4 & H5 & H6 & H7 & H8). fold a in H1, H2, H3, H4, H5, H6, H7, H8.
  rewrite <- Eb in *.
  set (d := v2_draft cfg P k2 user dom ch r t).
  assert (Vd : valid_authenticate d) by (apply v2_draft_valid; try assumption; apply M).
  destruct RF as (R1 & R2 & R3 & R4). destruct (R4 L) as (FC & R5 & _).
  assert (Fd : fits (authenticate_fields cfg d)).
  { apply (v2_fields_fit cfg P k2 user dom None ch r t); auto. split; [|exact R5].
    split; [exact R1|]. split; [exact R2|]. cbn. lia. }
  destruct (authenticate_by_offset cfg d Vd Fd) as (D1 & D2 & D3 & D4 & D5 & D6 & D7 & D8).
  destruct (authenticate_by_offset cfg a V F) as (A1 & A2 & A3 & A4 & A5 & A6 & A7 & A8). rewrite <- Eb in *.
  assert (NB : nb = negotiate_bytes (neg_message level dom)).
  { destruct (made_level _ _ _ _ _ _ _ _ _ M) as [Lv Dm]. rewrite <- Lv, <- Dm in N |- *. unfold answer in Hnb. cbn [step] in Hnb.
    rewrite (send_neg_run cfg P c (made_fresh _ _ _ _ _ _ _ _ _ M) h N) in Hnb. now apply outbytes_inj in Hnb. }
  exists d. split; [exact NB|]. split; [apply neg_message_valid, M|]. split; [apply neg_message_fits, N|].
  split; [exact Hv|]. split; [exact FC|]. split; [rewrite H8, EK, NB; unfold v2_mac_input; reflexivity|].
  intros o [<-|[<-|[<-|[<-|[<-|[]]]]]].
  - rewrite A1. exact D1.
  - rewrite A2. exact D2.
  - rewrite A3. exact D3.
  - rewrite A4. exact D4.
  - rewrite A6. exact D6.
Qed.
Lemma C97_tampering_lem : forall cfg P K
  e level user dom pw target c h ch r b nb e' level' user' dom' pw' target' c' h' ch' r' b' nb',
  made cfg P e level user dom pw target c -> made cfg P e' level' user' dom' pw' target' c' -> 3 <= level -> 3 <= level' ->
  concludes cfg P c h ch r b K -> answer cfg P c h OpNegociate = OutBytes nb ->
  concludes cfg P c' h' ch' r' b' K -> answer cfg P c' h' OpNegociate = OutBytes nb' ->
  sub b 64 16 = sub b' 64 16 ->
  (nb = nb' /\ ch = ch' /\ (forall o, In o [12; 20; 28; 36; 52] -> field_data b o = field_data b' o))
  \/ exists d d', nb ++ challenge_bytes cfg ch ++ d <> nb' ++ challenge_bytes cfg ch' ++ d'
       /\ p_hmac_md5 P K (nb ++ challenge_bytes cfg ch ++ d) = p_hmac_md5 P K (nb' ++ challenge_bytes cfg ch' ++ d')
       /\ sub b 64 16 = p_hmac_md5 P K (nb ++ challenge_bytes cfg ch ++ d)
       /\ (forall o, In o [12; 20; 28; 36; 52] -> field_data d o = field_data b o)
       /\ (forall o, In o [12; 20; 28; 36; 52] -> field_data d' o = field_data b' o).
Proof.
  intros cfg P K e level user dom pw target c h ch r b nb e' level' user' dom' pw' target' c' h' ch' r' b' nb' M M' L L' C Nb C' Nb' E.
  destruct (mic_draft _ _ _ _ _ _ _ _ _ _ _ _ _ _ _ M L C Nb) as (a & N1 & N2 & N3 & N4 & N5 & N6 & N7).
  destruct (mic_draft _ _ _ _ _ _ _ _ _ _ _ _ _ _ _ M' L' C' Nb') as (a' & N1' & N2' & N3' & N4' & N5' & N6' & N7').
  destruct (list_eq_dec N.eq_dec (nb ++ challenge_bytes cfg ch ++ authenticate_bytes cfg a) (nb' ++ challenge_bytes cfg ch' ++ authenticate_bytes cfg a')) as [X|X].
  - left. rewrite N1, N1' in X |- *. apply three_messages in X as (X1 & X2 & X3); auto.
    split; [now rewrite X1|]. split; [exact X2|]. intros o Ho. rewrite <- N7, <- N7' by exact Ho. now rewrite X3.
  - right. exists (authenticate_bytes cfg a), (authenticate_bytes cfg a'). split; [exact X|]. rewrite <- N6, <- N6'. auto.
Qed.
(** Two clients on different machines send different replies with one MIC: the
    workstation is not under it. *)
Lemma other_made level : made cfg_debug real_prims other_env level str_User str_Domain str_Password str_target (other_client level).
Proof.
  split; [exact real_prims_ok|]. split; [closed_valid|]. split; [closed_valid|]. split; [closed_valid|].
  split; [closed_valid|]. vm_compute. reflexivity.
Qed.
Lemma C97_reply_refuted_lem :
  ~ (forall cfg P K e e' level user dom pw target c c' h ch r b b',
      made cfg P e level user dom pw target c -> made cfg P e' level user dom pw target c' -> 3 <= level ->
      concludes cfg P c h ch r b K -> concludes cfg P c' h ch r b' K -> sub b 64 16 = sub b' 64 16 -> b = b').
Proof.
  intros H.
  assert (X : sample_reply 3 sealed_challenge = other_reply 3 sealed_challenge).
  { apply (H cfg_debug real_prims (repeat 85 16) host_env other_env 3 str_User str_Domain str_Password str_target (sample_client 3) (other_client 3)
      (sample_history sealed_challenge) sealed_challenge sample_entropy);
      [apply sample_made|apply other_made|lia| | |vm_compute; reflexivity].
    - apply sample_concludes; [exact sealed_valid|vm_compute; reflexivity|vm_compute; reflexivity|vm_compute; reflexivity].
    - split; [exact sealed_valid|]. split; [apply sample_entropy_ok|]. split; [apply sample_accepts|].
      split; [vm_compute; reflexivity|]. split; vm_compute; reflexivity. }
  revert X. vm_compute. discriminate.
Qed.
Example C97_ex_lem : concludes cfg_debug real_prims (sample_client 3) (sample_history sealed_challenge) sealed_challenge sample_entropy
    (sample_reply 3 sealed_challenge) (repeat 85 16)
  /\ concludes cfg_debug real_prims (other_client 3) (sample_history sealed_challenge) sealed_challenge sample_entropy
    (other_reply 3 sealed_challenge) (repeat 85 16)
  /\ sub (sample_reply 3 sealed_challenge) 64 16 = sub (other_reply 3 sealed_challenge) 64 16
  /\ (exists x y z, serialize cfg_debug (negotiate_ser sample_negotiate) = Val x /\ serialize cfg_debug (challenge_ser cfg_debug sample_challenge) = Val y
        /\ serialize cfg_debug (authenticate_ser cfg_debug sample_authenticate) = Val z).
Proof.
  split; [|split; [|split; [vm_compute; reflexivity|]]].
  - apply sample_concludes; [exact sealed_valid|vm_compute; reflexivity|vm_compute; reflexivity|vm_compute; reflexivity].
  - split; [exact sealed_valid|]. split; [apply sample_entropy_ok|]. split; [apply sample_accepts|].
    split; [vm_compute; reflexivity|]. split; vm_compute; reflexivity.
  - eexists. eexists. eexists. split; [vm_compute; reflexivity|]. split; vm_compute; reflexivity.
Qed.
