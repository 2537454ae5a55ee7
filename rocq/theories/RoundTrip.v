(** Messages decode back from their encodings. *)
From Coq Require Import ZifyBool ZifyNat ZifyN.
From Verif Require Import Base Nom Unicode Wire Structures Messages Spec Lib Encode Decode.

Ltac Zify.zify_post_hook ::= Z.div_mod_to_equations.

Lemma len_descriptor off f : len (descriptor off f) = 8.
Proof. unfold len. now rewrite descriptor_length. Qed.
Lemma len_NTLMSSP : len NTLMSSP = 8. Proof. reflexivity. Qed.
Lemma opt_version_len_le v : len (opt_version_bytes v) <= 8.
Proof. rewrite opt_version_bytes_len. destruct (is_some v); lia. Qed.
Lemma len_buffer n b : is_buffer n b -> len b = N.of_nat n.
Proof. intros [H _]. unfold len. now rewrite H. Qed.

Lemma oem_field_seen o pre post off : len pre = off -> valid_opt is_string o ->
  get_data_if (field_of off (opt_map utf8 o)) oem_de (pre ++ content (opt_map utf8 o) ++ post) true
  = POk [] (seen_oem o).
Proof.
  intros Hp Hv. apply get_data_field; [exact Hp|intros ->; reflexivity|].
  intros x ->. destruct x as [|c x]; [left; auto|right]. split; [now apply utf8_nonempty|].
  exists [], (c :: x). split; [now apply oem_de_ok|reflexivity].
Qed.
Lemma unicode_field_seen o pre post off : len pre = off -> valid_opt is_string o ->
  get_data_if (field_of off (opt_map utf16le o)) unicode_de (pre ++ content (opt_map utf16le o) ++ post) true
  = POk [] (seen_text o).
Proof.
  intros Hp Hv. apply get_data_field; [exact Hp|intros ->; reflexivity|].
  intros x ->. destruct x as [|c x]; [left; auto|right]. split; [now apply utf16le_nonempty|].
  eexists; eexists. split; [now apply unicode_de_prefix|reflexivity].
Qed.

Ltac lens := rewrite ?len_app, ?len_NTLMSSP, ?len_le32, ?len_descriptor, ?len_cons, ?len_nil.

Theorem negotiate_seen cfg n t : valid_negotiate n -> sendable_negotiate n ->
  negotiate_de cfg (negotiate_bytes n ++ t) = POk [] (seen_negotiate n).
Proof.
  intros (Hf & Hd & Hw & Hv) (Hfit & Hr).
  apply fitsb_fits in Hfit. cbn [fitsb negotiate_fields forallb] in Hfit.
  pose proof (opt_version_len_le (n_version n)) as Hvl.
  set (vb := opt_version_bytes (n_version n)) in *.
  set (f1 := opt_map utf8 (n_domain n)) in *. set (f2 := opt_map utf8 (n_workstation n)) in *.
  set (o1 := 32 + len vb). set (o2 := o1 + len (content f1)).
  assert (Hin : negotiate_bytes n ++ t =
    NTLMSSP ++ le32 1 ++ le32 (n_flags n) ++ descriptor o1 f1 ++ descriptor o2 f2
    ++ vb ++ content f1 ++ content f2 ++ t).
  { unfold negotiate_bytes, negotiate_fields, contents.
    cbn [descriptors concat flat_map]. fold vb f1 f2 o1 o2. rewrite !app_nil_r, <- !app_assoc. reflexivity. }
  unfold negotiate_de. remember (negotiate_bytes n ++ t) as inp eqn:Einp. clear Einp.
  rewrite Hin at 1. change SIGNATURE with NTLMSSP. rewrite tag_ok. cbn [pbind].
  erewrite verify_ok; [|apply le_u32_ok; reflexivity|reflexivity]. cbn [pbind].
  rewrite flags_de_ok by exact Hf. cbn [pbind].
  rewrite descriptor_de by lia. cbn [pbind].
  rewrite descriptor_de by lia. cbn [pbind].
  unfold vb. rewrite cond_version_ok by assumption. fold vb. cbn [pbind].
  rewrite !orb_true_r.
  assert (H1 : inp = (NTLMSSP ++ le32 1 ++ le32 (n_flags n) ++ descriptor o1 f1 ++ descriptor o2 f2 ++ vb)
               ++ content f1 ++ (content f2 ++ t)) by (rewrite Hin, <- !app_assoc; reflexivity).
  rewrite H1 at 1. unfold f1 at 1 3. rewrite oem_field_seen; [|lens; unfold o1; lia|exact Hd].
  cbn [pbind].
  assert (H2 : inp = (NTLMSSP ++ le32 1 ++ le32 (n_flags n) ++ descriptor o1 f1 ++ descriptor o2 f2 ++ vb ++ content f1)
               ++ content f2 ++ t) by (rewrite Hin, <- !app_assoc; reflexivity).
  rewrite H2. unfold f2 at 1 3. rewrite oem_field_seen; [|lens; unfold o2, o1; lia|exact Hw].
  reflexivity.
Qed.
Theorem negotiate_round_trip cfg n t : valid_negotiate n -> carried_negotiate n ->
  negotiate_de cfg (negotiate_bytes n ++ t) = POk [] n.
Proof.
  intros Hv (Hfit & Hnd & Hnw & Hr). rewrite negotiate_seen by (exact Hv || (split; assumption)).
  unfold seen_negotiate. rewrite !seen_oem_nonempty by assumption. now destruct n.
Qed.

Lemma parse_reserved_ok cfg r : parse_reserved cfg ([0; 0; 0; 0; 0; 0; 0; 0] ++ r) = POk r 0.
Proof.
  unfold parse_reserved. change [0; 0; 0; 0; 0; 0; 0; 0] with (le_enc 8 0).
  assert (le_u64 (le_enc 8 0 ++ r) = POk r 0) by (apply le_uint_ok; reflexivity).
  destruct (strict cfg); [|assumption]. now apply verify_ok.
Qed.
Lemma eol_ok l : eol_terminated l -> last_is_not_eol l = false.
Proof.
  unfold last_is_not_eol. intros [->|[l' ->]]; [reflexivity|]. now rewrite rev_app_distr.
Qed.
Lemma eol_inv l : last_is_not_eol l = false -> eol_terminated l.
Proof.
  unfold last_is_not_eol, eol_terminated. rewrite <- (rev_involutive l).
  destruct (rev l) as [|x r]; cbn [rev]; [now left|].
  rewrite rev_app_distr. cbn [rev app]. intros H. right. exists (rev r).
  destruct x; try discriminate. reflexivity.
Qed.

Theorem challenge_seen cfg c t : host_le cfg = true ->
  valid_challenge c -> sendable_challenge cfg c ->
  challenge_de cfg (challenge_bytes cfg c ++ t) = POk [] (seen_challenge c).
Proof.
  intros Hle (Ht & Hf & Hsc & Hav & Hv) (Hfit & Hca & Heol & Hr).
  apply fitsb_fits in Hfit. cbn [fitsb challenge_fields forallb] in Hfit.
  pose proof (opt_version_len_le (ch_version c)) as Hvl.
  set (vb := opt_version_bytes (ch_version c)) in *.
  set (f1 := opt_map utf16le (ch_target_name c)) in *. set (f2 := av_list_field cfg (ch_target_infos c)) in *.
  set (o1 := 48 + len vb). set (o2 := o1 + len (content f1)).
  pose proof (len_buffer _ _ Hsc) as Hscl.
  assert (Hin : challenge_bytes cfg c ++ t =
    NTLMSSP ++ le32 2 ++ descriptor o1 f1 ++ le32 (ch_flags c) ++ ch_server_challenge c
    ++ [0; 0; 0; 0; 0; 0; 0; 0] ++ descriptor o2 f2
    ++ vb ++ content f1 ++ content f2 ++ t).
  { unfold challenge_bytes, challenge_fields, contents.
    cbn [descriptors nth flat_map]. fold vb f1 f2 o1 o2. rewrite !app_nil_r, <- !app_assoc. reflexivity. }
  unfold challenge_de. remember (challenge_bytes cfg c ++ t) as inp eqn:Einp. clear Einp.
  rewrite Hin at 1. change SIGNATURE with NTLMSSP. rewrite tag_ok. cbn [pbind].
  erewrite verify_ok; [|apply le_u32_ok; reflexivity|reflexivity]. cbn [pbind].
  rewrite descriptor_de by lia. cbn [pbind].
  rewrite flags_de_ok by exact Hf. cbn [pbind].
  unfold buf_de. rewrite take_ok by apply Hsc. cbn [pbind].
  rewrite parse_reserved_ok. cbn [pbind].
  rewrite descriptor_de by lia. cbn [pbind].
  unfold vb. rewrite cond_version_ok by assumption. fold vb. cbn [pbind].
  rewrite !orb_true_r.
  assert (H1 : inp = (NTLMSSP ++ le32 2 ++ descriptor o1 f1 ++ le32 (ch_flags c) ++ ch_server_challenge c
    ++ [0; 0; 0; 0; 0; 0; 0; 0] ++ descriptor o2 f2 ++ vb)
               ++ content f1 ++ (content f2 ++ t)) by (rewrite Hin, <- !app_assoc; reflexivity).
  rewrite H1 at 1. unfold f1 at 1 3.
  rewrite unicode_field_seen; [|lens; rewrite Hscl; unfold o1; lia|exact Ht].
  cbn [pbind].
  assert (H2 : inp = (NTLMSSP ++ le32 2 ++ descriptor o1 f1 ++ le32 (ch_flags c) ++ ch_server_challenge c
    ++ [0; 0; 0; 0; 0; 0; 0; 0] ++ descriptor o2 f2 ++ vb ++ content f1)
               ++ content f2 ++ t) by (rewrite Hin, <- !app_assoc; reflexivity).
  rewrite H2 at 1. unfold f2 at 1 3.
  rewrite get_many_field; auto; [|lens; rewrite Hscl; unfold o2, o1; lia|fold f2; lia].
  cbn [pbind]. rewrite eol_ok by exact Heol. reflexivity.
Qed.
Theorem challenge_round_trip cfg c t : host_le cfg = true ->
  valid_challenge c -> carried_challenge cfg c ->
  challenge_de cfg (challenge_bytes cfg c ++ t) = POk [] c.
Proof.
  intros Hle Hv (Hfit & Hct & Hca & Heol & Hr).
  rewrite challenge_seen by (auto; repeat split; assumption).
  unfold seen_challenge. rewrite seen_text_carried by assumption. now destruct c.
Qed.

Lemma get_data_bytes (n : nat) o pre post off :
  len pre = off -> (0 < n)%nat -> valid_opt (is_buffer n) o ->
  get_data_if (field_of off o) (buf_de n) (pre ++ content o ++ post) true = POk [] o.
Proof.
  intros Hp Hn Hv.
  replace o with (opt_map (fun x : bytes => x) o) at 1 2 by (now destruct o).
  apply get_data_field; [exact Hp|auto|]. intros x ->. destruct Hv as [Hl _]. right. split.
  - intros ->. cbn in Hl. lia.
  - exists [], x. split; [|reflexivity]. unfold buf_de. rewrite <- (app_nil_r x) at 1. now apply take_ok.
Qed.

Lemma lm_bytes_length c : valid_lm c -> length (lm_bytes c) = 24%nat.
Proof.
  destruct c as [r|r cc]; cbn [valid_lm lm_bytes]; [intros [H _]; exact H|].
  intros [[H1 _] [H2 _]]. rewrite app_length, H1, H2. reflexivity.
Qed.

Theorem authenticate_seen cfg a t : host_le cfg = true ->
  valid_authenticate a -> sendable_authenticate cfg a ->
  authenticate_de cfg (authenticate_bytes cfg a ++ t) = POk [] (seen_authenticate a).
Proof.
  intros Hle (Hlm & Hnt & Hd & Hu & Hw & Hk & Hf & Hv & Hmic & _)
             (Hfit & Cnt & Hr).
  apply fitsb_fits in Hfit. cbn [fitsb authenticate_fields forallb] in Hfit.
  pose proof (opt_version_len_le (a_version a)) as Hvl.
  set (vb := opt_version_bytes (a_version a)) in *.
  set (f1 := opt_map lm_bytes (a_lm a)) in *. set (f2 := opt_map (nt_bytes cfg) (a_nt a)) in *.
  set (f3 := opt_map utf16le (a_domain a)) in *. set (f4 := opt_map utf16le (a_user a)) in *.
  set (f5 := opt_map utf16le (a_workstation a)) in *. set (f6 := a_session_key a) in *.
  pose proof (len_buffer _ _ Hmic) as Hml.
  set (o1 := 64 + len vb + len (a_mic a)). set (o2 := o1 + len (content f1)).
  set (o3 := o2 + len (content f2)). set (o4 := o3 + len (content f3)).
  set (o5 := o4 + len (content f4)). set (o6 := o5 + len (content f5)).
  set (hdr := NTLMSSP ++ le32 3 ++ descriptor o1 f1 ++ descriptor o2 f2 ++ descriptor o3 f3
       ++ descriptor o4 f4 ++ descriptor o5 f5 ++ descriptor o6 f6 ++ le32 (a_flags a) ++ vb ++ a_mic a).
  assert (Hhdr : len hdr = o1).
  { unfold hdr, o1. lens. lia. }
  assert (Hin : authenticate_bytes cfg a ++ t =
    hdr ++ content f1 ++ content f2 ++ content f3 ++ content f4 ++ content f5 ++ content f6 ++ t).
  { unfold authenticate_bytes, authenticate_fields, contents.
    cbn [descriptors concat flat_map]. fold vb f1 f2 f3 f4 f5 f6 o1 o2 o3 o4 o5 o6.
    unfold hdr. rewrite !app_nil_r, <- !app_assoc. reflexivity. }
  unfold authenticate_de. remember (authenticate_bytes cfg a ++ t) as inp eqn:Einp. clear Einp.
  rewrite Hin at 1. unfold hdr at 1. rewrite <- !app_assoc. change SIGNATURE with NTLMSSP. rewrite tag_ok. cbn [pbind].
  erewrite verify_ok; [|apply le_u32_ok; reflexivity|reflexivity]. cbn [pbind].
  do 6 (rewrite descriptor_de by lia; cbn [pbind]).
  rewrite flags_de_ok by exact Hf. cbn [pbind].
  unfold vb. rewrite cond_version_ok by assumption. fold vb. cbn [pbind].
  unfold buf_de at 1. rewrite take_ok by apply Hmic. cbn [pbind].
  assert (E1 : (if has_flag (a_flags a) NTLMSSP_NEGOTIATE_NTLM
     then ok_flatten (get_data_if (field_of o1 f1) lmv1_de inp true)
     else ok_flatten (get_data_if (field_of o1 f1) lmv2_de inp true)) = POk [] (opt_map (seen_lm (a_flags a)) (a_lm a))).
  { rewrite Hin. rewrite has_flag_testbit. change NTLMSSP_NEGOTIATE_NTLM with 9. unfold seen_lm.
    destruct (N.testbit (a_flags a) 9) eqn:E9; unfold f1;
      (erewrite get_data_field; [reflexivity|exact Hhdr|intros ->; reflexivity|]);
      intros x Hx; rewrite Hx in *; cbn [valid_opt] in *; right;
      pose proof (lm_bytes_length x Hlm) as Hl24.
    - split; [intros E; rewrite E in Hl24; discriminate|].
      exists [], (LmV1 (lm_bytes x)). split; [|reflexivity].
      rewrite <- (app_nil_r (lm_bytes x)) at 1. now apply lmv1_de_ok.
    - split; [intros E; rewrite E in Hl24; discriminate|].
      exists [], (LmV2 (firstn 16 (lm_bytes x)) (skipn 16 (lm_bytes x))). split; [|reflexivity].
      rewrite <- (app_nil_r (lm_bytes x)) at 1. rewrite <- (firstn_skipn 16 (lm_bytes x)) at 1.
      apply lmv2_de_ok; [rewrite firstn_length|rewrite skipn_length]; rewrite Hl24; reflexivity. }
  rewrite E1. cbn [pbind]. clear E1.
  assert (H2 : inp = (hdr ++ content f1) ++ content f2 ++ (content f3 ++ content f4 ++ content f5 ++ content f6 ++ t))
    by (rewrite Hin, <- !app_assoc; reflexivity).
  rewrite H2 at 1. unfold f2 at 1 2. rewrite (get_data_field _ _ _ (a_nt a)).
  2:{ lens. unfold o2. lia. }
  2:{ auto. }
  2:{ intros x Hx. rewrite Hx in Hnt, Cnt. cbn [valid_opt] in *. right. split.
      - destruct x as [r|c]; cbn [nt_bytes]; [|discriminate].
        destruct Hnt as [Hnt _]. intros ->. discriminate Hnt.
      - assert (HL : len (nt_bytes cfg x) <= 65535)
          by (unfold f2 in Hfit; rewrite Hx in Hfit; cbn [opt_map content] in Hfit; lia).
        destruct (nt_challenge_de_ok cfg x) as [r Hr']; auto. exists r, x. auto. }
  cbn [pbind].
  assert (H3 : inp = (hdr ++ content f1 ++ content f2) ++ content f3 ++ (content f4 ++ content f5 ++ content f6 ++ t))
    by (rewrite Hin, <- !app_assoc; reflexivity).
  rewrite H3 at 1. unfold f3 at 1 2. rewrite unicode_field_seen; [|lens; unfold o3, o2; lia|exact Hd].
  cbn [pbind].
  assert (H4 : inp = (hdr ++ content f1 ++ content f2 ++ content f3) ++ content f4 ++ (content f5 ++ content f6 ++ t))
    by (rewrite Hin, <- !app_assoc; reflexivity).
  rewrite H4 at 1. unfold f4 at 1 2. rewrite unicode_field_seen; [|lens; unfold o4, o3, o2; lia|exact Hu].
  cbn [pbind].
  assert (H5 : inp = (hdr ++ content f1 ++ content f2 ++ content f3 ++ content f4) ++ content f5 ++ (content f6 ++ t))
    by (rewrite Hin, <- !app_assoc; reflexivity).
  rewrite H5 at 1. unfold f5 at 1 2. rewrite unicode_field_seen; [|lens; unfold o5, o4, o3, o2; lia|exact Hw].
  cbn [pbind].
  assert (H6 : inp = (hdr ++ content f1 ++ content f2 ++ content f3 ++ content f4 ++ content f5) ++ content f6 ++ t)
    by (rewrite Hin, <- !app_assoc; reflexivity).
  rewrite has_flag_testbit. change NTLMSSP_NEGOTIATE_KEY_EXCH with 30.
  assert (E6 : get_data_if (field_of o6 f6) (buf_de 16) inp (N.testbit (a_flags a) 30) = POk [] (if N.testbit (a_flags a) 30 then f6 else None)).
  { destruct (N.testbit (a_flags a) 30) eqn:E30.
    - rewrite H6. apply get_data_bytes; [|lia|exact Hk]. lens; unfold o6, o5, o4, o3, o2; lia.
    - reflexivity. }
  rewrite E6. reflexivity.
Qed.
Theorem authenticate_round_trip cfg a t : host_le cfg = true ->
  valid_authenticate a -> carried_authenticate cfg a ->
  authenticate_de cfg (authenticate_bytes cfg a ++ t) = POk [] (with_exported_key a None).
Proof.
  intros Hle Hv (Hfit & Clm & Cnt & Cd & Cu & Cw & Ck & Hr).
  rewrite authenticate_seen by (auto; repeat split; assumption).
  unfold seen_authenticate. rewrite !seen_text_carried by assumption.
  replace (opt_map (seen_lm (a_flags a)) (a_lm a)) with (a_lm a).
  - destruct a as [lm nt d u w k f v m e]; unfold with_exported_key; cbn in *.
    destruct (N.testbit f 30); [reflexivity|]. destruct k; [|reflexivity]. discriminate Ck. congruence.
  - destruct Hv as [Hlm _]. destruct (a_lm a) as [[r|r cc]|]; cbn [valid_opt carried_lm opt_map valid_lm] in *;
      unfold seen_lm; [now rewrite Clm|rewrite Clm|reflexivity].
    destruct Hlm as [[Hl _] _]. cbn [lm_bytes]. rewrite <- Hl, firstn_app_exact, skipn_app_exact; auto.
Qed.
