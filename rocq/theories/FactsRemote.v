(** What a server can do to a client: replies to received bytes. *)
From Coq Require Import ZifyBool ZifyNat ZifyN.
From Verif Require Import Base Nom Unicode Wire Structures Prims Messages Crypto Client Spec SpecBuild SpecCrypto SpecClient SpecStream SpecRemote Lib Encode Decode RoundTrip Parse Samples FactsEncode FactsDecode FactsBuild DesKey RealPrims FactsCrypto SamplesClient History Reply FactsClient FactsHandshake FactsEndian FactsEffort SamplesRemote.

Ltac Zify.zify_post_hook ::= Z.div_mod_to_equations.

(** ** C109 *)
(** What was decoded is valid, can be encoded again and is no longer than the
    fields it was decoded from. *)
Lemma decoded_small cfg b rest ch : is_bytes b -> challenge_de cfg b = POk rest ch ->
  valid_challenge ch /\ fits (challenge_fields cfg ch)
  /\ len (av_list_bytes cfg (ch_target_infos ch)) <= field_len b 40.
Proof.
  intros Hb H. set (le := mkConfig (debug cfg) (strict cfg) (windows cfg) true).
  assert (E : challenge_de le b = POk rest ch) by (rewrite <- H; destruct cfg; reflexivity).
  apply C53_decoded_challenge_lem in E as [_ E]; [|exact Hb].
  destruct (challenge_says_good le b ch eq_refl Hb E) as (V & [F _] & _).
  split; [exact V|]. split.
  - unfold fits, challenge_fields in *. apply Forall_cons_iff in F as [F1 F2]. apply Forall_cons_iff in F2 as [F2 _].
    constructor; [exact F1|]. constructor; [|constructor]. unfold av_list_field in *.
    destruct (ch_target_infos ch) as [|x l]; [exact F2|]. cbn [content] in *. now rewrite (av_list_len cfg le).
  - destruct E as (_ & _ & _ & _ & I & _). rewrite (av_list_len cfg le).
    destruct I as [[_ ->]|(H1 & H2 & r & H3)]; [cbn; lia|].
    destruct (walk_good le _ _ eq_refl H3 (field_data_bytes b 40 Hb) _ _ eq_refl) as (_ & _ & G).
    rewrite inside_len in G by assumption. lia.
Qed.
(** Exactly when a client answers the challenge it decoded from the bytes of
    the server and accepted: always at levels 0 to 2; above, if the list of AV
    pairs leaves room for 28 bytes in a field. *)
Lemma C109_answers_exactly_lem : forall cfg P e level user dom pw target c h r ws b rest ch,
  made cfg P e level user dom pw target c -> workstation_name P e ws -> is_entropy r ->
  negotiable level dom -> names_short user dom ws ->
  is_bytes b -> challenge_de cfg b = POk rest ch -> accepts h ch ->
  ((exists m, answer cfg P c h (OpAuthenticate r) = OutBytes m)
   <-> level <= 2 \/ (len (av_list_bytes cfg (ch_target_infos ch)) <= 65507 /\ response_time ch r <> None)).
Proof.
  intros cfg P e level user dom pw target c h r ws b rest ch Hm Hw Hr N (S1 & S2 & S3) Hb D A.
  destruct (decoded_small _ _ _ _ Hb D) as (V & F & L).
  rewrite (answer_iff _ _ _ _ _ _ _ _ _ h ch r ws Hm N Hw V Hr A). unfold reply_fits. split.
  - intros (_ & _ & _ & X). destruct (N.le_gt_cases level 2) as [G|G]; [now left|right].
    destruct X as (_ & X & Y); [lia|]. split; [lia|exact Y].
  - intros [G|[G T]]; (repeat split; auto); try (intros; lia). all: exact F.
Qed.
(** So no message whose target info field has at most 65507 bytes stops a
    client whose clock is set. *)
Lemma C109_small_challenges_lem : forall cfg P e level user dom pw target c h r ws b rest ch,
  made cfg P e level user dom pw target c -> workstation_name P e ws -> is_entropy r ->
  negotiable level dom -> names_short user dom ws ->
  is_bytes b -> challenge_de cfg b = POk rest ch -> accepts h ch ->
  field_len b 40 <= 65507 -> (exists t, filetime_try_from (e_clock r) = inl t) ->
  exists m, answer cfg P c h (OpAuthenticate r) = OutBytes m.
Proof.
  intros cfg P e level user dom pw target c h r ws b rest ch Hm Hw Hr N S Hb D A L [t T].
  apply (C109_answers_exactly_lem cfg P e level user dom pw target c h r ws b rest ch Hm Hw Hr N S Hb D A).
  destruct (decoded_small _ _ _ _ Hb D) as (_ & _ & L'). right. split; [lia|].
  unfold response_time. destruct (first_some _ _); [discriminate|]. rewrite T. discriminate.
Qed.
Lemma reply_len cfg a n : valid_authenticate a -> a_version a = None ->
  a_lm a <> None -> opt_map (nt_bytes cfg) (a_nt a) = Some n -> a_session_key a <> None ->
  len (authenticate_bytes cfg a)
  = 120 + len n + len (content (opt_map utf16le (a_domain a))) + len (content (opt_map utf16le (a_user a)))
    + len (content (opt_map utf16le (a_workstation a))).
Proof.
  intros (Hlm & _ & _ & _ & _ & Hk & _ & _ & Hmic & _) Hv Nl Hn Nk.
  unfold authenticate_bytes, contents, authenticate_fields. rewrite Hv, Hn, !len_app, len_concat_descriptors.
  cbn [flat_map length opt_version_bytes content]. rewrite !len_app. change (len (@nil N)) with 0. change (len NTLMSSP) with 8.
  change (len (le32 3)) with 4. change (len (le32 (a_flags a))) with 4.
  destruct (a_session_key a) as [k|]; [|congruence]. destruct (a_lm a) as [l|]; [|congruence].
  cbn [valid_opt opt_map content] in *. rewrite (len_buffer _ _ Hmic), (len_buffer _ _ Hk).
  assert (len (lm_bytes l) = 24).
  { destruct l as [x|x y]; cbn in Hlm |- *; [exact (len_buffer _ _ Hlm)|]. destruct Hlm as [H1 H2].
    rewrite len_app, (len_buffer _ _ H1), (len_buffer _ _ H2). reflexivity. }
  lia.
Qed.
(** How long a reply is, and that it grows with the challenge by no more than
    the list in it. *)
Lemma C109_size_lem : forall cfg P e level user dom pw target c h r ws b rest ch m,
  made cfg P e level user dom pw target c -> workstation_name P e ws -> is_entropy r ->
  is_bytes b -> challenge_de cfg b = POk rest ch -> accepts h ch ->
  answer cfg P c h (OpAuthenticate r) = OutBytes m ->
  len m = (if level <=? 2 then 144 else 148 + len (av_list_bytes cfg (ch_target_infos ch))) + names_bytes user dom ws
  /\ len m <= 148 + field_len b 40 + names_bytes user dom ws
  /\ (level <= 5 /\ names_short user dom ws -> len m <= 262288).
Proof.
  intros cfg P e level user dom pw target c h r ws b rest ch m Hm Hw Hr Hb D A E.
  destruct (decoded_small _ _ _ _ Hb D) as (V & F & L).
  assert (R : replies cfg P e level user dom pw ch r m) by (exists target, c, h; auto).
  assert (X : len m = (if level <=? 2 then 144 else 148 + len (av_list_bytes cfg (ch_target_infos ch))) + names_bytes user dom ws).
  { unfold names_bytes. destruct (N.leb_spec level 2) as [G|G].
    - destruct (replies_lm _ _ _ _ _ _ _ _ _ _ R) as [klm K].
      destruct (replies_v1 _ _ _ _ _ _ _ _ _ _ ws klm R G Hw K) as (HP & _ & _ & VA & _ & ->).
      rewrite (reply_len _ _ _ VA eq_refl ltac:(discriminate) eq_refl ltac:(discriminate)).
      unfold v1_message. cbn [a_domain a_user a_workstation opt_map content nt_bytes a_nt].
      destruct VA as (_ & VN & _). cbn in VN. rewrite (len_buffer _ _ VN). lia.
    - destruct (replies_v2 _ _ _ _ _ _ _ _ _ _ ws R ltac:(lia) Hw) as (HP & _ & _ & _ & _ & t & _ & VT & VA & _ & ->).
      rewrite (reply_len _ _ _ VA eq_refl ltac:(discriminate) eq_refl ltac:(discriminate)).
      unfold v2_message, v2_draft. cbn [a_domain a_user a_workstation opt_map content nt_bytes a_nt with_flags with_workstation with_mic].
      unfold ntv2_bytes. cbn [nt_timestamp nt_client_challenge nt_target_infos]. rewrite !len_app.
      unfold filetime_bytes. rewrite len_app, !len_le32. destruct Hr as [Hc _]. rewrite (len_buffer _ _ Hc).
      change (len [1; 1; 0; 0; 0; 0; 0; 0]) with 8. change (len [0; 0; 0; 0]) with 4. lia. }
  split; [exact X|]. pose proof (field_len_u16 b 40 Hb) as U. unfold is_u16 in *.
  split; [destruct (level <=? 2); lia|]. intros [_ (S1 & S2 & S3)]. unfold names_bytes in X. destruct (level <=? 2); lia.
Qed.
Lemma wordy_decodes n : n <= 32757 ->
  is_bytes (challenge_bytes cfg_debug (wordy_challenge n))
  /\ challenge_de cfg_debug (challenge_bytes cfg_debug (wordy_challenge n)) = POk [] (wordy_challenge n)
  /\ len (av_list_bytes cfg_debug (ch_target_infos (wordy_challenge n))) = 20 + 2 * n.
Proof.
  intros Hn.
  assert (U : forall k, len (utf16le (repeat 97 k)) = 2 * N.of_nat k /\ is_bytes (utf16le (repeat 97 k))).
  { induction k as [|k [IH1 IH2]]; [split; [reflexivity|constructor]|]. cbn [repeat].
    change (utf16le (97 :: repeat 97 k)) with (utf16le [97] ++ utf16le (repeat 97 k)). rewrite len_app, IH1. split.
    - change (len (utf16le [97])) with 2. lia.
    - apply is_bytes_app. split; [closed_valid|exact IH2]. }
  specialize (U (N.to_nat n)) as [U1 U2]. rewrite N2Nat.id in U1.
  assert (S : plain_string (repeat 97 (N.to_nat n))).
  { split.
    - apply Forall_forall. intros x Hx. apply repeat_spec in Hx as ->. reflexivity.
    - apply forallb_forall. intros x Hx. apply repeat_spec in Hx as ->. reflexivity. }
  assert (L : len (av_list_bytes cfg_debug (ch_target_infos (wordy_challenge n))) = 20 + 2 * n).
  { unfold wordy_challenge. cbn [ch_target_infos av_list_bytes flat_map]. rewrite !len_app, !av_bytes_len.
    cbn [av_value]. unfold utf16_host. cbn [host_le cfg_debug]. rewrite U1. change (len (filetime_bytes _)) with 8.
    change (len (@nil N)) with 0. lia. }
  assert (V : valid_challenge (wordy_challenge n)).
  { split; [exact I|]. split; [closed_valid|]. split; [closed_valid|]. split; [|exact I].
    constructor; [exact (proj1 S)|]. repeat constructor; closed_valid. }
  assert (D : challenge_de cfg_debug (challenge_bytes cfg_debug (wordy_challenge n)) = POk [] (wordy_challenge n)).
  { rewrite <- (app_nil_r (challenge_bytes _ _)). apply challenge_round_trip; [reflexivity|exact V|].
    split.
    - apply fits_intro. intros f [<-|[<-|[]]]; [cbn; lia|]. unfold av_list_field.
      change (match ch_target_infos (wordy_challenge n) with [] => None | _ => Some (av_list_bytes cfg_debug (ch_target_infos (wordy_challenge n))) end)
        with (Some (av_list_bytes cfg_debug (ch_target_infos (wordy_challenge n)))). cbn [content]. rewrite L. lia.
    - split; [exact I|]. split; [constructor; [exact S|]; repeat constructor; cbn; discriminate|].
      split; [|reflexivity]. right.
      exists [AvDnsDomainName (repeat 97 (N.to_nat n)); AvTimestamp (mkFileTime 5 6)]. reflexivity. }
  split; [|split; [exact D|exact L]].
  unfold challenge_bytes, challenge_fields, contents, wordy_challenge, av_list_field.
  cbn [ch_target_infos ch_target_name ch_version ch_flags ch_server_challenge opt_map opt_version_bytes flat_map content
       descriptors nth av_list_bytes].
  repeat (apply is_bytes_app; split); auto using le16_bytes, le32_bytes; try solve [closed_valid].
Qed.
(** False: a client answers every challenge it accepts.  A challenge of 65556
    bytes stops it at level 3. *)
Lemma C109_answers_refuted_lem : ~ (forall cfg P e level user dom pw target c h r ws b rest ch,
  made cfg P e level user dom pw target c -> workstation_name P e ws -> is_entropy r ->
  negotiable level dom -> names_short user dom ws ->
  is_bytes b -> challenge_de cfg b = POk rest ch -> accepts h ch ->
  (exists t, filetime_try_from (e_clock r) = inl t) ->
  exists m, answer cfg P c h (OpAuthenticate r) = OutBytes m).
Proof.
  intros H. destruct (wordy_decodes 32744 ltac:(lia)) as (B & D & L).
  assert (S : names_short str_User str_Domain (Some str_COMPUTER)) by closed_valid.
  specialize (H cfg_debug real_prims host_env 3 str_User str_Domain str_Password str_target (sample_client 3)
    (sample_history (wordy_challenge 32744)) sample_entropy (Some str_COMPUTER) _ _ _ (sample_made 3) sample_workstation
    sample_entropy_ok (sample_negotiable 3 ltac:(lia)) S B D (sample_accepts _)).
  apply (C109_answers_exactly_lem _ _ _ _ _ _ _ _ _ _ _ _ _ _ _ (sample_made 3) sample_workstation
    sample_entropy_ok (sample_negotiable 3 ltac:(lia)) S B D (sample_accepts _)) in H.
  - rewrite L in H. destruct H as [H|[H _]]; lia.
  - eexists. vm_compute. reflexivity.
Qed.
(** One letter less and the reply comes. *)
Example C109_ex_lem : let b := challenge_bytes cfg_debug (wordy_challenge 32743) in
  is_bytes b /\ challenge_de cfg_debug b = POk [] (wordy_challenge 32743)
  /\ names_short str_User str_Domain (Some str_COMPUTER)
  /\ exists m, answer cfg_debug real_prims (sample_client 3) (sample_history (wordy_challenge 32743))
                 (OpAuthenticate sample_entropy) = OutBytes m /\ len m = 65690.
Proof.
  intros b. destruct (wordy_decodes 32743 ltac:(lia)) as (B & D & L).
  assert (S : names_short str_User str_Domain (Some str_COMPUTER)) by closed_valid.
  split; [exact B|]. split; [exact D|]. split; [exact S|].
  destruct (proj2 (C109_answers_exactly_lem _ _ _ _ _ _ _ _ _ _ _ _ _ _ _ (sample_made 3) sample_workstation
    sample_entropy_ok (sample_negotiable 3 ltac:(lia)) S B D (sample_accepts _))) as [m M].
  { right. rewrite L. split; [lia|discriminate]. }
  exists m. split; [exact M|].
  destruct (C109_size_lem _ _ _ _ _ _ _ _ _ _ _ _ _ _ _ _ (sample_made 3) sample_workstation sample_entropy_ok B D (sample_accepts _) M)
    as (E & _). rewrite E, L. vm_compute. reflexivity.
Qed.
