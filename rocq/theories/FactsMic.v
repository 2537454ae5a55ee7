(** Facts about the place of the MIC and how it is announced. *)
From Coq Require Import ZifyBool ZifyNat ZifyN.
From Verif Require Import Base Nom Unicode Wire Structures Prims Messages Crypto Client Spec SpecBuild SpecCrypto SpecClient SpecServer Lib Encode Decode RoundTrip Parse Samples FactsEncode FactsDecode FactsBuild DesKey RealPrims FactsCrypto SamplesClient History Reply FactsClient FactsReply.

Ltac Zify.zify_post_hook ::= Z.div_mod_to_equations.

(** ** C83 *)
(** Where the MIC is written, and where the fields start behind it. *)
Lemma C83_encoded_lem : forall cfg a b, valid_authenticate a -> serialize cfg (authenticate_ser cfg a) = Val b ->
  match a_version a with
  | Some v => sub b 64 8 = version_bytes v /\ standard_mic b = a_mic a
  | None => sub b 64 16 = a_mic a /\ standard_mic b = sub (a_mic a) 8 8 ++ sub b 80 8
  end.
Proof.
  intros cfg a b V S. rewrite authenticate_serialize in S by exact V.
  destruct (fitsb (authenticate_fields cfg a)) eqn:F; [|discriminate]. injection S as <-.
  apply fitsb_fits in F. unfold standard_mic.
  pose proof (len_buffer 16 (a_mic a) ltac:(apply V)) as Lm. 
  set (off := 64 + len (opt_version_bytes (a_version a)) + len (a_mic a)).
  set (ds := concat (descriptors off (authenticate_fields cfg a))).
  assert (Hds : len ds = 48).
  { unfold ds, authenticate_fields. cbn [descriptors concat]. rewrite app_nil_r, !len_app, !len_descriptor. reflexivity. }
  assert (E : authenticate_bytes cfg a = (NTLMSSP ++ le32 3 ++ ds ++ le32 (a_flags a)) ++ opt_version_bytes (a_version a) ++ a_mic a ++ contents (authenticate_fields cfg a)).
  { unfold authenticate_bytes. fold off. fold ds. now rewrite <- !app_assoc. }
  rewrite E. set (h := NTLMSSP ++ _). assert (Lh : len h = 64) by (unfold h; rewrite !len_app, Hds; reflexivity).
  destruct (a_version a) as [v|]; cbn [opt_version_bytes app].
  - split.
    + apply sub_app; [exact Lh|reflexivity].
    + rewrite app_assoc. apply sub_app; [rewrite len_app, Lh; reflexivity|exact Lm].
  - split; [now apply sub_app|]. set (k := contents _). clearbody h k. clear - Lm Lh.
    unfold sub. rewrite !skipn_app. unfold len in *. 
    replace (N.to_nat 72) with 72%nat by reflexivity. replace (N.to_nat 80) with 80%nat by reflexivity.
    replace (N.to_nat 8) with 8%nat by reflexivity. replace (N.to_nat 16) with 16%nat by reflexivity.
    assert (Lh' : length h = 64%nat) by lia. assert (Lm' : length (a_mic a) = 16%nat) by lia.
    rewrite (skipn_all2 (n := 72) h) by lia. rewrite (skipn_all2 (n := 80) h) by lia. rewrite Lh', Lm'. cbn [app Nat.sub].
    rewrite (skipn_all2 (n := 16) (a_mic a)) by lia. cbn [app]. rewrite firstn_app, skipn_length, Lm'. cbn [Nat.sub].
    rewrite !firstn_all2 with (n := 16%nat) by (rewrite skipn_length; lia).
    rewrite firstn_all2 with (n := 8%nat) (l := skipn 8 _) by (rewrite skipn_length; lia). reflexivity.
Qed.
(** Where it is read. *)
Lemma C83_decoded_lem : forall cfg b r a, is_bytes b -> authenticate_de cfg b = POk r a ->
  (N.testbit (u32_at b 60) 25 = true -> a_mic a = standard_mic b)
  /\ (standard_without_version b -> a_mic a = zeros 8 ++ sub (standard_mic b) 0 8).
Proof.
  intros cfg b r a Hb H. apply C53_decoded_authenticate_lem in H as [_ H]; [|exact Hb].
  destruct H as ((L & _ & _ & Lm) & _ & _ & _ & _ & _ & _ & _ & _ & -> & _). unfold authenticate_mic_off in *.
  unfold standard_mic. split.
  - now intros ->.
  - intros [Hf Z]. rewrite Hf in *. rewrite <- Z. unfold sub. change (N.to_nat 72) with (N.to_nat 64 + 8)%nat. rewrite <- (skipn_skipn 8 (N.to_nat 64) b).
    assert (Lx : (8 <= length (skipn (N.to_nat 64) b))%nat) by (rewrite skipn_length; unfold len in *; lia).
    set (x := skipn (N.to_nat 64) b) in *. clearbody x. change (N.to_nat 16) with 16%nat. change (N.to_nat 8) with 8%nat.
    change (N.to_nat 0) with 0%nat. rewrite skipn_O, firstn_firstn.
    rewrite <- (firstn_skipn 8 x) at 1. rewrite firstn_app, firstn_firstn, firstn_length. replace (Nat.min 8 (length x)) with 8%nat by lia. reflexivity.
Qed.
Lemma C83_encoded_refuted_lem : ~ (forall cfg a b, valid_authenticate a ->
  serialize cfg (authenticate_ser cfg a) = Val b -> standard_mic b = a_mic a).
Proof.
  intros H. specialize (H cfg_debug (mkAuthenticate None None None None None None 1 None (repeat 5 16) None)).
  match type of H with forall b, _ -> ?s = _ -> _ => destruct s as [b|] eqn:E; [|vm_compute in E; discriminate] end.
  specialize (H b ltac:(closed_valid) eq_refl). vm_compute in E. injection E as <-. vm_compute in H. discriminate.
Qed.
Lemma C83_decoded_refuted_lem : ~ (forall cfg b r a, is_bytes b -> standard_without_version b ->
  authenticate_de cfg b = POk r a -> a_mic a = standard_mic b).
Proof.
  intros H. specialize (H cfg_debug (NTLMSSP ++ le32 3 ++ zeros 48 ++ le32 1 ++ zeros 8 ++ repeat 5 16)).
  match type of H with forall r a, _ -> _ -> ?s = _ -> _ => destruct s as [r a| |] eqn:E; [|vm_compute in E; discriminate|vm_compute in E; discriminate] end.
  specialize (H r a ltac:(closed_valid) ltac:(split; reflexivity) eq_refl). vm_compute in E. injection E as <- <-. vm_compute in H. discriminate.
Qed.
(** What a conforming server takes for the MIC of a reply: the second half of
    it, followed by the first 8 bytes of the LM response. *)
Lemma C83_replies_lem : forall cfg P e level user dom pw ch r b, 3 <= level ->
  replies cfg P e level user dom pw ch r b ->
  standard_mic b = sub (sub b 64 16) 8 8 ++ sub (field_data b 12) 0 8
  /\ N.testbit (u32_at b 60) 25 = false.
Proof.
  intros cfg P e level user dom pw ch r b L H.
  destruct (replies_workstation _ _ _ _ _ _ _ _ _ _ H) as [ws W].
  destruct (replies_v2 _ _ _ _ _ _ _ _ _ _ _ H L W) as (HP & Hv & Hr & N & RF & t & T1 & T2 & V & F & Eb).
  set (a := v2_message _ _ _ _ _ _ _ _ _ _) in *.
  assert (S : serialize cfg (authenticate_ser cfg a) = Val b).
  { rewrite authenticate_serialize by exact V. apply fitsb_fits in F. now rewrite F, Eb. }
  pose proof (C83_encoded_lem _ _ _ V S) as X. change (a_version a) with (@None version) in X. cbn iota in X.
  destruct X as [X1 X2]. destruct (v2_by_offset _ _ _ _ _ _ _ _ _ _ V F) as (H1 & _ & _ & _ & _ & _ & H7 & _).
  fold a in H1, H7. rewrite <- Eb in H1, H7. split; [|now rewrite H7].
  rewrite X2, X1. f_equal.
  destruct (C20_field_layout_lem cfg) as [_ [_ LO]]. specialize (LO a b V S). destruct LO as [LO _].
  change (a_version a) with (@None version) in LO. cbn iota in LO.
  change (opt_map lm_bytes (a_lm a)) with (Some (v2_lm_response P (ntowfv2 cfg P user (ntowfv1 cfg P pw) dom) (ch_server_challenge ch) (e_client_challenge r))) in LO.
  destruct LO as (E1 & _ & E2 & E3). rewrite <- E3 in E1.
  assert (L24 : len (field_data b 12) = 24).
  { rewrite H1. unfold v2_lm_response. rewrite len_app. rewrite (len_buffer 16), (len_buffer 8); [reflexivity|apply Hr|].
    now apply hmac_buffer. }
  rewrite L24 in E1. unfold field_data. rewrite E1, E2. change (match @None version with Some _ => 88 | None => 80 end) with 80.
  unfold sub. change (N.to_nat 0) with 0%nat. rewrite skipn_O, firstn_firstn. reflexivity.
Qed.
Example C83_ex_lem : valid_authenticate sample_authenticate /\ a_version sample_authenticate <> None
  /\ (exists b, serialize cfg_debug (authenticate_ser cfg_debug sample_authenticate) = Val b)
  /\ replies cfg_debug real_prims host_env 3 str_User str_Domain str_Password sealed_challenge sample_entropy (sample_reply 3 sealed_challenge).
Proof.
  split; [closed_valid|]. split; [discriminate|]. split; [eexists; vm_compute; reflexivity|].
  apply sample_replies; [exact sealed_valid|vm_compute; reflexivity].
Qed.

(** ** C84 *)
Lemma C84_echoed_lem : forall cfg P e level user dom pw ch r b, host_le cfg = true -> 3 <= level ->
  replies cfg P e level user dom pw ch r b ->
  skipn 28 (field_data b 20) = av_list_bytes cfg (ch_target_infos ch)
  /\ field_data b 12 = v2_lm_response P (NTOWFv2 P pw user dom) (ch_server_challenge ch) (e_client_challenge r).
Proof.
  intros cfg P e level user dom pw ch r b Hle L H.
  destruct (replies_workstation _ _ _ _ _ _ _ _ _ _ H) as [ws W].
  assert (Hr : is_entropy r) by (destruct H as (? & ? & ? & ? & ? & ? & ?); assumption).
  destruct (C27_ntlmv2_response_lem _ _ _ _ _ _ _ _ _ _ _ Hle L W H) as (t & _ & H1 & H2 & _).
  split; [|exact H1]. rewrite H2. assert (Lc : length (e_client_challenge r) = 8%nat).
  { pose proof (len_buffer 8 _ (proj1 Hr)) as X. unfold len in X. lia. }
  rewrite !app_assoc. set (x := ((([1; 1] ++ _) ++ _) ++ _) ++ zeros 4).
  assert (Lx : length x = 28%nat) by (unfold x; rewrite !app_length, Lc; reflexivity).
  rewrite skipn_app, Lx, (skipn_all2 x) by lia. reflexivity.
Qed.
Lemma timed_valid : valid_challenge timed_challenge.
Proof. closed_valid. Qed.
Lemma C84_announced_refuted_lem : ~ (forall cfg P e level user dom pw ch r b l, 3 <= level -> gives_time (ch_target_infos ch) ->
  replies cfg P e level user dom pw ch r b -> carries_infos cfg b l -> announces_mic l).
Proof.
  intros H.
  assert (R : replies cfg_debug real_prims host_env 3 str_User str_Domain str_Password timed_challenge sample_entropy (sample_reply 3 timed_challenge)).
  { apply sample_replies; [exact timed_valid|vm_compute; reflexivity]. }
  assert (C : carries_infos cfg_debug (sample_reply 3 timed_challenge) (ch_target_infos timed_challenge)).
  { split; [closed_valid|]. split; [closed_valid|]. vm_compute. reflexivity. }
  assert (L : 3 <= 3) by lia. assert (T : gives_time (ch_target_infos timed_challenge)) by (exists (mkFileTime 4096 30000000); cbn; auto).
  destruct (H _ _ _ _ _ _ _ _ _ _ _ L T R C) as (f & I & _).
  cbn in I. intuition discriminate.
Qed.
Lemma C84_lm_response_refuted_lem : ~ (forall cfg P e level user dom pw ch r b, 3 <= level -> gives_time (ch_target_infos ch) ->
  replies cfg P e level user dom pw ch r b -> field_data b 12 = zeros 24).
Proof.
  intros H.
  assert (R : replies cfg_debug real_prims host_env 3 str_User str_Domain str_Password timed_challenge sample_entropy (sample_reply 3 timed_challenge)).
  { apply sample_replies; [exact timed_valid|vm_compute; reflexivity]. }
  assert (L : 3 <= 3) by lia. assert (T : gives_time (ch_target_infos timed_challenge)) by (exists (mkFileTime 4096 30000000); cbn; auto).
  specialize (H _ _ _ _ _ _ _ _ _ _ L T R). vm_compute in H. discriminate.
Qed.
Example C84_ex_lem :
  replies cfg_debug real_prims host_env 4 str_User str_Domain str_Password timed_challenge sample_entropy (sample_reply 4 timed_challenge)
  /\ len (field_data (sample_reply 4 timed_challenge) 20) = 60.
Proof. split; [apply sample_replies; [exact timed_valid|vm_compute; reflexivity]|vm_compute; reflexivity]. Qed.
