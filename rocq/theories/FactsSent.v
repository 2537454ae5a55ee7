(** What the client sends, as MS-NLMP describes messages. *)
From Coq Require Import ZifyBool ZifyNat ZifyN.
From Verif Require Import Base Nom Unicode Wire Structures Prims Messages Crypto Client Spec SpecBuild SpecCrypto SpecConform SpecClient Lib Encode Decode RoundTrip Parse Samples FactsEncode FactsDecode FactsBuild DesKey RealPrims FactsCrypto SamplesClient History Reply FactsClient FactsReply FactsTrace SamplesSent.

Ltac Zify.zify_post_hook ::= Z.div_mod_to_equations.

Lemma laid_out_holds b fs : forall start, laid_out b start fs -> forall o f, In (o, f) fs -> holds b o (content f).
Proof.
  induction fs as [|[o' f'] fs IH]; intros start H o f HI; [contradiction|]. cbn [laid_out] in H. destruct H as [H1 H2].
  destruct HI as [E|HI]; [|exact (IH _ H2 _ _ HI)]. injection E as -> ->. destruct f as [x|].
  - destruct H1 as (L & _ & _ & D). now split.
  - assert (Z : field_len b o = 0).
    { unfold field_len, u16_at, byte_at. unfold sub in H1.
      assert (E : forall i, nth (N.to_nat o + i) b 0 = nth i (skipn (N.to_nat o) b) 0)
        by (intros i; now rewrite nth_skipn).
      replace (N.to_nat (o + 1)) with (N.to_nat o + 1)%nat by lia.
      replace (N.to_nat o) with (N.to_nat o + 0)%nat at 1 by lia. rewrite !E.
      destruct (skipn (N.to_nat o) b) as [|x [|y l]]; cbn in H1; try discriminate. injection H1 as -> ->. reflexivity. }
    split; [exact Z|]. unfold field_data. rewrite Z. reflexivity.
Qed.
Lemma laid_out_len b fs : forall start, laid_out b start fs -> len b = start + len (contents (map snd fs)).
Proof.
  induction fs as [|[o f] fs IH]; intros start H; cbn [laid_out] in H.
  - subst start. cbn. unfold len. cbn [length]. lia.
  - destruct H as [_ H]. rewrite (IH _ H). cbn [map snd contents flat_map]. rewrite len_app. unfold contents. lia.
Qed.
Lemma contents_cons f fs : contents (f :: fs) = content f ++ contents fs.
Proof. reflexivity. Qed.
Lemma serialized cfg a : valid_authenticate a -> fits (authenticate_fields cfg a) ->
  serialize cfg (authenticate_ser cfg a) = Val (authenticate_bytes cfg a).
Proof. intros V F. rewrite authenticate_serialize by exact V. apply fitsb_fits in F. now rewrite F. Qed.
(** The parts of an encoded message without version. *)
Lemma sent_parts cfg a : valid_authenticate a -> fits (authenticate_fields cfg a) -> a_version a = None ->
  is_some (a_lm a) = true ->
  let b := authenticate_bytes cfg a in
  88 <= len b /\ is_message 3 b /\ u32_at b 60 = a_flags a
  /\ holds b 12 (content (opt_map lm_bytes (a_lm a))) /\ holds b 20 (content (opt_map (nt_bytes cfg) (a_nt a)))
  /\ holds b 28 (content (opt_map utf16le (a_domain a))) /\ holds b 36 (content (opt_map utf16le (a_user a)))
  /\ holds b 44 (content (opt_map utf16le (a_workstation a))) /\ holds b 52 (content (a_session_key a))
  /\ sub b 64 16 = a_mic a.
Proof.
  intros V F E HL b. pose proof (serialized cfg a V F) as S. fold b in S.
  destruct (C20_field_layout_lem cfg) as [_ [_ LO]]. specialize (LO a b V S). rewrite E in LO.
  destruct (authenticate_by_offset cfg a V F) as (_ & _ & _ & _ & _ & _ & H7 & H8).
  fold b in H7, H8.
  assert (HH : forall o f, In (o, f) _ -> holds b o (content f)) by exact (laid_out_holds b _ _ LO).
  split.
  { rewrite (laid_out_len _ _ _ LO). cbn [map snd]. rewrite contents_cons, len_app.
    destruct (a_lm a) as [l|] eqn:El; [|discriminate HL]. cbn [opt_map content].
    assert (Vl : valid_lm l) by (destruct V as (V1 & _); rewrite El in V1; exact V1).
    assert (8 <= len (lm_bytes l)); [|lia].
    destruct l as [x|p q]; cbn [lm_bytes valid_lm] in *.
    - rewrite (len_buffer 24) by exact Vl. lia.
    - rewrite len_app, (len_buffer 16), (len_buffer 8) by apply Vl. lia. }
  split; [exact (proj2 (proj2 (C21_encoded_types_lem cfg b)) a V S)|]. split; [exact H7|].
  repeat (split; [apply HH; cbn [In]; tauto|]). exact (H8 E).
Qed.
Lemma neg_sent cfg P e level user dom pw target c h b : made cfg P e level user dom pw target c ->
  SpecClient.answer cfg P c h OpNegociate = OutBytes b ->
  b = negotiate_bytes (neg_message level dom)
  /\ laid_out b 32 [(16, opt_map utf8 (match dom with [] => None | _ => Some dom end)); (24, None)]
  /\ is_message 1 b /\ u32_at b 12 = n_flags (neg_message level dom).
Proof.
  intros Hm H.
  assert (N : negotiable level dom).
  { destruct (N.le_gt_cases level 5) as [L|L]; [destruct (N.le_gt_cases (len (utf8 dom)) 65535) as [D|D]|]; [now split| |];
      destruct (C25_unsupported_panics_lem _ _ _ _ _ _ _ _ _ h Hm) as [w Ew]; try (intros [? ?]; lia);
      rewrite Ew in H; discriminate. }
  destruct (made_level _ _ _ _ _ _ _ _ _ Hm) as [L D].
  pose proof (made_fresh _ _ _ _ _ _ _ _ _ Hm) as F. assert (Hd : is_string dom) by apply Hm.
  assert (E : SpecClient.answer cfg P c h OpNegociate = OutBytes (negotiate_bytes (neg_message level dom))).
  { unfold SpecClient.answer. cbn [step]. rewrite <- L, <- D in *. rewrite (send_neg_run cfg P c F h N). reflexivity. }
  rewrite E in H. apply outbytes_inj in H. split; [congruence|]. subst b.
  pose proof (neg_message_valid level dom Hd) as V. pose proof (proj2 (neg_message_fits level dom) (proj2 N)) as FF.
  assert (S : serialize cfg (negotiate_ser (neg_message level dom)) = Val (negotiate_bytes (neg_message level dom))).
  { rewrite negotiate_serialize by exact V. apply fitsb_fits in FF. now rewrite FF. }
  split; [|split].
  - pose proof (proj1 (C20_field_layout_lem cfg) _ _ V S) as X. destruct dom; exact X.
  - exact (proj1 (C21_encoded_types_lem cfg _) _ V S).
  - unfold negotiate_bytes. rewrite app_assoc. change 12 with (len (NTLMSSP ++ le32 1)). apply u32_at_le32, V.
Qed.

(** ** C107 *)
(** A domain of ASCII characters: the message a client sends first is the NEGOTIATE of MS-NLMP
    with this domain, announced by bit 12, and nothing else. *)
Lemma C107_offer_lem : forall cfg P e level user dom pw target c h b,
  made cfg P e level user dom pw target c -> answer cfg P c h OpNegociate = OutBytes b ->
  is_ascii dom ->
  client_offers b (mkNegotiate (u32_at b 12) (match dom with [] => None | _ => Some dom end) None None)
  /\ (N.testbit (u32_at b 12) 12 = true <-> dom <> []) /\ N.testbit (u32_at b 12) 13 = false.
Proof.
  intros cfg P e level user dom pw target c h b Hm H Ha.
  destruct (neg_sent _ _ _ _ _ _ _ _ _ _ _ Hm H) as (_ & LO & M & F).
  pose proof (laid_out_holds _ _ _ LO) as HH. pose proof (laid_out_len _ _ _ LO) as HL.
  assert (B : forall i, N.testbit (u32_at b 12) i = existsb (N.eqb i) (level_bits level ++ match dom with [] => [] | _ => [12] end)).
  { intros i. rewrite F. cbn [neg_message n_flags]. rewrite neg_flags_bits. now destruct dom. }
  split; [|split].
  - split; [lia|]. split; [exact M|]. split; [reflexivity|].
    assert (H1 : holds b 16 (content (opt_map utf8 (match dom with [] => None | _ => Some dom end)))) by (apply HH; now left).
    assert (H2 : holds b 24 (content None)) by (apply HH; right; now left).
    cbn [n_domain n_workstation n_version n_flags]. split; [|split; [exact H2|]].
    + destruct dom as [|x dom]; [exact H1|]. cbn [opt_map content] in *. rewrite (FactsCrypto.utf8_ascii _ Ha) in H1. exact H1.
    + cbn [version_part]. rewrite B. unfold level_bits. destruct (level =? 0), (level =? 1), dom; reflexivity.
  - rewrite B. unfold level_bits. destruct (level =? 0), (level =? 1), dom; cbn; split; congruence.
  - rewrite B. unfold level_bits. destruct (level =? 0), (level =? 1), dom; reflexivity.
Qed.
Lemma utf8_len_ascii s : len s <= len (utf8 s) /\ (len (utf8 s) = len s <-> is_ascii s).
Proof.
  induction s as [|c s [IH1 IH2]]; [split; [cbn; lia|]; split; [constructor|reflexivity]|].
  unfold utf8 in *. cbn [flat_map]. rewrite len_app, len_cons.
  destruct (N.ltb_spec c 128) as [L|L].
  - assert (E1 : len (utf8_char c) = 1) by (unfold utf8_char; replace (c <? 128) with true by lia; reflexivity).
    rewrite E1. split; [lia|]. split.
    + intros E. constructor; [exact L|]. apply IH2. lia.
    + inversion 1; subst. apply IH2 in H3. lia.
  - assert (2 <= len (utf8_char c)).
    { unfold utf8_char, len. replace (c <? 128) with false by lia.
      destruct (c <? 2048); [cbn; lia|]. destruct (c <? 65536); cbn; lia. }
    split; [lia|]. split; [lia|]. inversion 1; subst. lia.
Qed.
(** OEM text has a byte for each character; the domain in the message has so only if it is ASCII. *)
Lemma C107_offer_only_lem : forall cfg P e level user dom pw target c h b,
  made cfg P e level user dom pw target c -> answer cfg P c h OpNegociate = OutBytes b ->
  (field_len b 16 = len dom <-> is_ascii dom).
Proof.
  intros cfg P e level user dom pw target c h b Hm H.
  destruct (neg_sent _ _ _ _ _ _ _ _ _ _ _ Hm H) as (_ & LO & _).
  assert (H1 : holds b 16 (content (opt_map utf8 (match dom with [] => None | _ => Some dom end))))
    by (apply (laid_out_holds _ _ _ LO); now left).
  destruct H1 as [H1 _]. rewrite H1.
  replace (content (opt_map utf8 (match dom with [] => None | _ => Some dom end))) with (utf8 dom) by now destruct dom.
  apply utf8_len_ascii.
Qed.
Lemma sub_64 b : sub b 64 8 = sub (sub b 64 16) 0 8.
Proof. unfold sub. change (N.to_nat 0) with 0%nat. rewrite skipn_O, firstn_firstn. reflexivity. Qed.
(** Levels 0 to 2, if the server has negotiated UNICODE and no version: the reply is the AUTHENTICATE
    of MS-NLMP with the responses of MS-NLMP, the names, a session key of 16 bytes and no version. *)
Lemma C107_answer_old_lem : forall cfg P e level user dom pw ws ch r b klm, host_le cfg = true -> level <= 2 ->
  workstation_name P e ws -> lmowfv1 P pw = Val klm -> replies cfg P e level user dom pw ch r b ->
  N.testbit (ch_flags ch) 0 = true -> N.testbit (ch_flags ch) 25 = false ->
  let a := mkAnswer (u32_at b 60)
    (v1_lm_response P (ch_flags ch) (NTOWFv1 P pw) klm (ch_server_challenge ch) (e_client_challenge r) (1 <=? level))
    (v1_nt_response P (ch_flags ch) (NTOWFv1 P pw) (ch_server_challenge ch) (e_client_challenge r))
    dom user (content ws) (field_data b 52) None (sub b 72 16) in
  client_answers b a /\ usual_answer a.
Proof.
  intros cfg P e level user dom pw ws ch r b klm Hle L Hw Hk H U V25 a.
  destruct (C32_ntlmv1_response_lem _ _ _ _ _ _ _ _ _ _ _ _ Hle L Hw Hk H) as (R1 & R2 & R3 & R4 & R5).
  destruct (replies_v1 _ _ _ _ _ _ _ _ _ _ _ _ H L Hw Hk) as (HP & Hv & Hr & V & F & Eb).
  set (m := v1_message _ _ _ _ _ _ _ _ _) in *.
  destruct (sent_parts cfg m V F eq_refl eq_refl) as (S1 & S2 & S3 & S4 & S5 & S6 & S7 & S8 & S9 & S10).
  rewrite <- Eb in *.
  pose proof (proj2 (C57_reply_flags_lem _ _ _ _ _ _ _ _ _ _ H) L) as B.
  assert (B0 : N.testbit (u32_at b 60) 0 = true) by now rewrite B.
  assert (B25 : N.testbit (u32_at b 60) 25 = false) by now rewrite B.
  assert (B30 : N.testbit (u32_at b 60) 30 = true) by now rewrite B.
  assert (N : forall s, negotiated_text (u32_at b 60) s = utf16le s) by (intros s; unfold negotiated_text; now rewrite B0).
  assert (S4' := S4). destruct S4' as [_ D4]. rewrite R1 in D4. assert (S5' := S5). destruct S5' as [_ D5]. rewrite R2 in D5.
  destruct V as (V1 & V2 & V3 & V4 & V5 & V6 & _).
  split.
  - split; [exact S1|]. split; [exact S2|]. split; [reflexivity|].
    cbn [a an_flags an_lm an_nt an_domain an_user an_workstation an_key an_version an_mic]. rewrite !N, D4, D5.
    split; [exact S4|]. split; [exact S5|]. split; [exact S6|]. split; [exact S7|].
    split. { replace (utf16le (content ws)) with (content (opt_map utf16le ws)) by now destruct ws. exact S8. }
    split. { destruct S9 as [K1 K2]. split; [now rewrite K1, K2|reflexivity]. }
    split; [exact B25|]. split; [|reflexivity].
    intros _. rewrite sub_64, S10. reflexivity.
  - split; [exact B0|]. cbn [a an_flags an_lm an_nt an_domain an_user an_workstation an_key an_version an_mic].
    split; [exact V3|]. split; [exact V4|]. split; [destruct ws; [exact V5|constructor]|].
    split; [rewrite D4; exact V1|]. rewrite B30. split; [|exact I]. destruct S9 as [_ K2]. rewrite K2. exact V6.
Qed.
(** Otherwise it is no such message. *)
Lemma C107_answer_old_only_lem : forall cfg P e level user dom pw ch r b a, level <= 2 ->
  replies cfg P e level user dom pw ch r b -> client_answers b a -> usual_answer a ->
  N.testbit (ch_flags ch) 0 = true /\ N.testbit (ch_flags ch) 25 = false.
Proof.
  intros cfg P e level user dom pw ch r b a L H (_ & _ & C & _ & _ & _ & _ & _ & _ & CV & _ & _) (U & _ & _ & _ & _ & _ & UV).
  destruct (replies_workstation _ _ _ _ _ _ _ _ _ _ H) as [ws Hw].
  destruct (replies_lm _ _ _ _ _ _ _ _ _ _ H) as [klm Hk].
  destruct (replies_v1 _ _ _ _ _ _ _ _ _ _ _ _ H L Hw Hk) as (HP & Hv & Hr & V & F & Eb).
  set (m := v1_message _ _ _ _ _ _ _ _ _) in *.
  destruct (sent_parts cfg m V F eq_refl eq_refl) as (S1 & S2 & S3 & S4 & S5 & S6 & S7 & S8 & S9 & S10).
  rewrite <- Eb in *.
  pose proof (proj2 (C57_reply_flags_lem _ _ _ _ _ _ _ _ _ _ H) L) as B.
  split; [rewrite <- C, B in U; exact U|].
  destruct (N.testbit (ch_flags ch) 25) eqn:E; [exfalso|reflexivity].
  destruct (an_version a) as [v|]; cbn [version_part] in CV.
  - destruct CV as (_ & _ & CV). rewrite sub_64, S10 in CV. destruct UV as [_ UV].
    unfold version_bytes in CV. rewrite UV in CV. cbn in CV. discriminate.
  - rewrite <- C, B in CV. cbn in CV. congruence.
Qed.
(** Levels 3 to 5: the MIC stands where MS-NLMP has the version. The reply is an AUTHENTICATE of MS-NLMP
    just if the first 8 bytes of its MIC happen to be zeros. *)
Lemma C107_answer_lem : forall cfg P e level user dom pw ws ch r b, 3 <= level ->
  workstation_name P e ws -> replies cfg P e level user dom pw ch r b ->
  (sub b 64 8 = zeros 8 ->
   let a := mkAnswer (u32_at b 60) (field_data b 12) (field_data b 20) dom user (content ws) (field_data b 52) None (sub b 72 16) in
   client_answers b a /\ usual_answer a)
  /\ (forall a, client_answers b a -> sub b 64 8 = zeros 8).
Proof.
  intros cfg P e level user dom pw ws ch r b L Hw H.
  destruct (replies_v2 _ _ _ _ _ _ _ _ _ _ _ H L Hw) as (HP & Hv & Hr & N & RF & t & T1 & T2 & V & F & Eb).
  set (m := v2_message _ _ _ _ _ _ _ _ _ _) in *.
  destruct (sent_parts cfg m V F eq_refl eq_refl) as (S1 & S2 & S3 & S4 & S5 & S6 & S7 & S8 & S9 & S10).
  rewrite <- Eb in *.
  pose proof (proj1 (C57_reply_flags_lem _ _ _ _ _ _ _ _ _ _ H) L) as B.
  assert (B0 : N.testbit (u32_at b 60) 0 = true) by now rewrite B.
  assert (B25 : N.testbit (u32_at b 60) 25 = false) by now rewrite B.
  assert (B30 : N.testbit (u32_at b 60) 30 = true) by now rewrite B.
  assert (NT : forall s, negotiated_text (u32_at b 60) s = utf16le s) by (intros s; unfold negotiated_text; now rewrite B0).
  assert (HH : forall o x, holds b o x -> holds b o (field_data b o)) by (intros o x [K1 K2]; split; [now rewrite K1, K2|reflexivity]).
  destruct V as (V1 & V2 & V3 & V4 & V5 & V6 & _).
  split.
  - intros Z a. split.
    + split; [exact S1|]. split; [exact S2|]. split; [reflexivity|].
      cbn [a an_flags an_lm an_nt an_domain an_user an_workstation an_key an_version an_mic]. rewrite !NT.
      split; [eapply HH, S4|]. split; [eapply HH, S5|]. split; [exact S6|]. split; [exact S7|].
      split. { replace (utf16le (content ws)) with (content (opt_map utf16le ws)) by now destruct ws. exact S8. }
      split; [eapply HH, S9|]. split; [exact B25|]. split; [|reflexivity]. intros _. exact Z.
    + split; [exact B0|]. cbn [a an_flags an_lm an_nt an_domain an_user an_workstation an_key an_version an_mic].
      split; [exact V3|]. split; [exact V4|]. split; [destruct ws; [exact V5|constructor]|].
      split. { destruct S4 as [_ ->]. destruct V1 as [[A1 A2] [A3 A4]]. split; [cbn; rewrite app_length; now rewrite A1, A3|].
               apply Forall_app. now split. }
      rewrite B30. split; [|exact I]. destruct S9 as [_ K2]. rewrite K2. exact V6.
  - intros a (_ & _ & C & _ & _ & _ & _ & _ & _ & CV & CZ & _).
    destruct (an_version a) as [v|]; cbn [version_part] in CV.
    + destruct CV as (CV & _). rewrite <- C in CV. congruence.
    + exact (CZ eq_refl).
Qed.
Lemma app_same_length {A} (a b c d : list A) : a ++ b = c ++ d -> length a = length c -> a = c /\ b = d.
Proof.
  revert c. induction a as [|x a IH]; intros [|y c] H L; try discriminate L; [now split|].
  cbn in H, L. injection H as -> H. injection L as L. destruct (IH _ H L) as [-> ->]. now split.
Qed.
(** The NT response of levels 3 to 5 is an NTLMv2 response of MS-NLMP only if the client challenge drawn is
    the head of the client challenge structure, and then for an NTProofStr that is this head and a time. *)
Lemma C107_v2_never_lem : forall cfg P e level user dom pw ch r b proof t cc l, 3 <= level ->
  replies cfg P e level user dom pw ch r b -> is_buffer 16 proof ->
  field_data b 20 = v2_response proof t cc l ->
  e_client_challenge r = v2_head
  /\ exists t', response_time ch r = Some t' /\ proof = v2_head ++ filetime_bytes t'.
Proof.
  intros cfg P e level user dom pw ch r b proof t cc l L H Hp E.
  destruct (replies_workstation _ _ _ _ _ _ _ _ _ _ H) as [ws Hw].
  destruct (replies_v2 _ _ _ _ _ _ _ _ _ _ _ H L Hw) as (HP & Hv & Hr & N & RF & t' & T1 & T2 & V & F & Eb).
  destruct (v2_by_offset _ _ _ _ _ _ _ _ _ _ V F) as (_ & H2 & _). rewrite <- Eb, E in H2.
  unfold v2_response, v2_temp in H2. rewrite <- !app_assoc in H2.
  assert (Ft : len (filetime_bytes t') = 8) by (unfold filetime_bytes; rewrite len_app, !len_le32; reflexivity).
  assert (Hc : is_buffer 8 (e_client_challenge r)) by apply Hr.
  change ([1; 1] ++ zeros 6 ++ filetime_bytes t' ++ ?x) with (v2_head ++ filetime_bytes t' ++ x) in H2.
  rewrite (app_assoc v2_head (filetime_bytes t')) in H2.
  assert (Hl : forall (b : bytes) n, len b = N.of_nat n -> length b = n) by (unfold len; intros; lia).
  apply app_same_length in H2. 2:{ rewrite app_length, (Hl _ 8%nat Ft). apply Hp. }
  destruct H2 as [E1 E2]. apply app_same_length in E2; [|symmetry; apply Hc]. destruct E2 as [E2 _].
  split; [now symmetry|]. exists t'. now split.
Qed.
Lemma quiet_prims_ok : prims_ok quiet_prims.
Proof.
  destruct real_prims_ok. constructor; cbn [p_md4 p_md5 p_hmac_md5 p_des p_rc4_stream p_upper quiet_prims]; auto.
  intros k m. apply (zeros_buffer 16).
Qed.
Lemma bare_replies P level ch r : prims_ok P ->
  new_with_domain cfg_debug P bare_env level str_User str_Domain str_Password []
    = Val (bare_client P level str_User str_Domain str_Password) ->
  valid_challenge ch -> is_entropy r ->
  answer cfg_debug P (bare_client P level str_User str_Domain str_Password)
    [OpNegociate; OpRecvChallenge ch] (OpAuthenticate r) = OutBytes (bare_reply P level ch r) ->
  replies cfg_debug P bare_env level str_User str_Domain str_Password ch r (bare_reply P level ch r).
Proof.
  intros HP Hc Hv Hr H. exists [], (bare_client P level str_User str_Domain str_Password), [OpNegociate; OpRecvChallenge ch].
  split.
  { split; [exact HP|]. split; [repeat split; exact I|]. repeat (split; [closed_valid|]). exact Hc. }
  split; [exact Hv|]. split; [exact Hr|]. split; [|exact H].
  exists [], [], []. split; [reflexivity|]. split; constructor.
Qed.
Lemma C107_refuted_lem : ~ (forall cfg P e level user dom pw ch r b, host_le cfg = true ->
  replies cfg P e level user dom pw ch r b -> exists a, client_answers b a).
Proof.
  intros H.
  assert (R : replies cfg_debug real_prims host_env 3 str_User str_Domain str_Password sealed_challenge sample_entropy
    (sample_reply 3 sealed_challenge)) by (apply sample_replies; [exact sealed_valid|vm_compute; reflexivity]).
  destruct (H cfg_debug _ _ _ _ _ _ _ _ _ eq_refl R) as [a A].
  apply (proj2 (C107_answer_lem cfg_debug real_prims host_env 3 str_User str_Domain str_Password (Some str_COMPUTER) sealed_challenge
    sample_entropy (sample_reply 3 sealed_challenge) ltac:(lia) sample_workstation R)) in A.
  revert A. vm_compute. discriminate.
Qed.
Example C107_ex_lem :
  answer cfg_debug real_prims (sample_client 2) (sample_history sealed_challenge) OpNegociate
     = OutBytes [78; 84; 76; 77; 83; 83; 80; 0; 1; 0; 0; 0; 55; 144; 138; 96; 6; 0; 6; 0; 32; 0; 0; 0;
                 0; 0; 0; 0; 0; 0; 0; 0; 68; 111; 109; 97; 105; 110]
  /\ is_ascii str_Domain /\ ~ is_ascii str_Dueren
  /\ made cfg_debug real_prims bare_env 2 str_User str_Dueren str_Password [] (bare_client real_prims 2 str_User str_Dueren str_Password)
  /\ replies cfg_debug real_prims host_env 2 str_User str_Domain str_Password sealed_challenge sample_entropy (sample_reply 2 sealed_challenge)
  /\ lmowfv1 real_prims str_Password = Val [229; 44; 172; 103; 65; 154; 154; 34; 74; 59; 16; 143; 63; 166; 203; 109] /\ workstation_name real_prims host_env (Some str_COMPUTER)
  /\ N.testbit (ch_flags sealed_challenge) 0 = true /\ N.testbit (ch_flags sealed_challenge) 25 = false
  /\ replies cfg_debug real_prims host_env 2 str_User str_Domain str_Password versioned_challenge sample_entropy
       (sample_reply 2 versioned_challenge)
  /\ N.testbit (ch_flags versioned_challenge) 25 = true.
Proof.
  split; [vm_compute; reflexivity|]. split; [repeat constructor|].
  split. { intros H. apply Forall_inv_tail, Forall_inv in H. revert H. vm_compute. discriminate. }
  split; [split; [exact real_prims_ok|bare_made]|].
  split; [apply sample_replies; [exact sealed_valid|vm_compute; reflexivity]|].
  split; [vm_compute; reflexivity|]. split; [exact sample_workstation|].
  split; [reflexivity|]. split; [reflexivity|]. split; [|reflexivity].
  apply sample_replies; [closed_valid|vm_compute; reflexivity].
Qed.
Example C107_answer_ex_lem :
  replies cfg_debug quiet_prims bare_env 3 str_User str_Domain str_Password sealed_challenge sample_entropy
    (bare_reply quiet_prims 3 sealed_challenge sample_entropy)
  /\ sub (bare_reply quiet_prims 3 sealed_challenge sample_entropy) 64 8 = zeros 8
  /\ workstation_name quiet_prims bare_env None
  /\ sub (sample_reply 3 sealed_challenge) 64 8 <> zeros 8.
Proof.
  split. { apply bare_replies; [exact quiet_prims_ok|vm_compute; reflexivity|exact sealed_valid|exact sample_entropy_ok|vm_compute; reflexivity]. }
  split; [vm_compute; reflexivity|]. split; [reflexivity|]. vm_compute. discriminate.
Qed.
(** The exception exists. *)
Example C107_v2_never_ex_lem :
  replies cfg_debug real_prims bare_env 3 str_User str_Domain str_Password posing_challenge posing_entropy
    (bare_reply real_prims 3 posing_challenge posing_entropy)
  /\ is_buffer 16 (firstn 16 (field_data (bare_reply real_prims 3 posing_challenge posing_entropy) 20))
  /\ field_data (bare_reply real_prims 3 posing_challenge posing_entropy) 20
     = v2_response (firstn 16 (field_data (bare_reply real_prims 3 posing_challenge posing_entropy) 20))
         (mkFileTime 0 786434) [65; 0; 66; 0; 67; 0; 68; 0] [].
Proof.
  split. { apply bare_replies; [exact real_prims_ok|vm_compute; reflexivity|closed_valid|closed_valid|vm_compute; reflexivity]. }
  split; [|vm_compute; reflexivity].
  match goal with |- is_buffer 16 ?x => let y := eval vm_compute in x in replace x with y by (vm_compute; reflexivity) end.
  closed_valid.
Qed.
