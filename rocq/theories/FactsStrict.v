(** The feature strict with its attributes spelt right. *)
From Coq Require Import ZifyBool ZifyNat ZifyN.
From Verif Require Import Base Nom Unicode Wire Structures Prims Messages Crypto Client Spec SpecBuild SpecCrypto SpecClient Lib Encode Decode RoundTrip Parse Samples FactsEncode FactsDecode FactsBuild DesKey RealPrims FactsCrypto SamplesClient History Reply FactsClient FactsReply FactsTrace FactsGuard SamplesTiming SamplesPlaces FactsTiming FactsPlaces SamplesConform Strict SpecStrict.

Ltac Zify.zify_post_hook ::= Z.div_mod_to_equations.

Definition bad (f : flags) : bool :=
  existsb (N.testbit f) reserved_bits || (N.testbit f 16 && N.testbit f 17)
  || (negb (N.testbit f 0) && negb (N.testbit f 1)) || (N.testbit f 19 && N.testbit f 7).
Lemma bad_spec f : bad f = true <-> invalid_flags f.
Proof.
  unfold bad, invalid_flags. rewrite !orb_true_iff, !andb_true_iff, !negb_true_iff, existsb_exists. tauto.
Qed.
Lemma s_validate_bad cfg f : s_validate cfg f = negb (strict cfg && bad f).
Proof.
  unfold s_validate, bad. rewrite !has_flag_testbit. cbn [existsb reserved_bits].
  change R1 with 28. change R2 with 27. change R3 with 26. change R4 with 24. change R5 with 21. change R6 with 18. change R7 with 14.
  change R8 with 10. change R9 with 8. change R10 with 3. change NTLMSSP_TARGET_TYPE_DOMAIN with 16. change NTLMSSP_TARGET_TYPE_SERVER with 17.
  change NTLMSSP_NEGOTIATE_UNICODE with 0. change NTLM_NEGOTIATE_OEM with 1. change NTLMSSP_NEGOTIATE_EXTENDED_SESSIONSECURITY with 19.
  change NTLMSSP_NEGOTIATE_LM_KEY with 7.
  destruct (strict cfg); rewrite ?andb_true_r, ?andb_false_r; [|reflexivity]. cbn [andb].
  destruct (N.testbit f 28); [reflexivity|]. destruct (N.testbit f 27); [reflexivity|]. destruct (N.testbit f 26); [reflexivity|].
  destruct (N.testbit f 24); [reflexivity|]. destruct (N.testbit f 21); [reflexivity|]. destruct (N.testbit f 18); [reflexivity|].
  destruct (N.testbit f 14); [reflexivity|]. destruct (N.testbit f 10); [reflexivity|]. destruct (N.testbit f 8); [reflexivity|].
  destruct (N.testbit f 3); [reflexivity|]. cbn [orb]. destruct (N.testbit f 16 && N.testbit f 17); [reflexivity|]. cbn [orb].
  destruct (negb (N.testbit f 0) && negb (N.testbit f 1)); [reflexivity|]. cbn [orb]. now destruct (N.testbit f 19 && N.testbit f 7).
Qed.
Lemma s_flags_at cfg b k : s_flags_de cfg (drop k b) =
  if strict cfg && bad (u32_at b k) then PErr EError else flags_de cfg (drop k b).
Proof.
  rewrite flags_de_at. unfold s_flags_de, verify. rewrite le_u32_at. destruct (k + 4 <=? len b); [|now destruct (_ && _)].
  cbn [pbind]. rewrite s_validate_bad. now destruct (strict cfg && bad (u32_at b k)).
Qed.
Lemma also_bad {A} cfg b o (x y : pres A) : x = (if strict cfg && bad (u32_at b o) then PErr EError else y) -> also_checks cfg b o x y.
Proof.
  intros ->. unfold also_checks. rewrite <- bad_spec. destruct (strict cfg), (bad (u32_at b o)); cbn [andb]; split; intros; try reflexivity; intuition congruence.
Qed.
Ltac ahead := match goal with
  | |- context [if strict ?cfg && bad ?f then _ else _] => destruct (strict cfg && bad f) end.

(** ** C118 *)
(** Exactly the words that MS-NLMP 2.2.2.5 forbids would be rejected, in strict builds. *)
Lemma C118_words_lem : forall cfg f rest, is_u32 f ->
  (strict cfg = true -> invalid_flags f -> s_flags_de cfg (le32 f ++ rest) = PErr EError)
  /\ (strict cfg = false \/ ~ invalid_flags f -> s_flags_de cfg (le32 f ++ rest) = POk rest f).
Proof.
  intros cfg f rest Hf. pose proof (C14_all_flags_accepted_lem cfg f rest Hf) as E.
  change (le32 f ++ rest) with (drop 0 (le32 f ++ rest)). rewrite s_flags_at. change (drop 0 (le32 f ++ rest)) with (le32 f ++ rest).
  replace (u32_at (le32 f ++ rest) 0) with f. 2:{
    pose proof (flags_de_at cfg (le32 f ++ rest) 0) as Z. change (drop 0 (le32 f ++ rest)) with (le32 f ++ rest) in Z. rewrite E in Z.
    destruct (_ <=? _); [|discriminate]. congruence. }
  rewrite E. rewrite <- bad_spec. destruct (strict cfg), (bad f); cbn [andb]; split; intros; try reflexivity; intuition congruence.
Qed.
(** The decoders of the messages: nothing but the flag word is looked at in addition. *)
Lemma C118_messages_lem : forall cfg b,
  also_checks cfg b 12 (s_negotiate_de cfg b) (negotiate_de cfg b)
  /\ also_checks cfg b 20 (s_challenge_de cfg b) (challenge_de cfg b)
  /\ also_checks cfg b 60 (s_authenticate_de cfg b) (authenticate_de cfg b).
Proof.
  intros cfg b. split; [|split]; apply also_bad.
  - unfold s_negotiate_de, negotiate_de. rewrite tag_at. destruct (beq_bytes _ _); cbn [pbind]; [|now ahead].
    rewrite le_u32_verify_at. destruct (_ && (_ =? 1)); cbn [pbind]; [|now ahead].
    change (8 + 4) with 12. rewrite s_flags_at. now ahead.
  - unfold s_challenge_de, challenge_de. rewrite tag_at. destruct (beq_bytes _ _); cbn [pbind]; [|now ahead].
    rewrite le_u32_verify_at. destruct (_ && (_ =? 2)); cbn [pbind]; [|now ahead].
    change (8 + 4) with 12. rewrite field_at. change (12 + 8) with 20. destruct (20 <=? len b); cbn [pbind]; [|now ahead].
    rewrite s_flags_at. now ahead.
  - unfold s_authenticate_de, authenticate_de. rewrite tag_at. destruct (beq_bytes _ _); cbn [pbind]; [|now ahead].
    rewrite le_u32_verify_at. destruct (_ && (_ =? 3)); cbn [pbind]; [|now ahead].
    change (8 + 4) with 12. rewrite field_at. change (12 + 8) with 20. destruct (20 <=? len b); cbn [pbind]; [|now ahead].
    rewrite field_at. change (20 + 8) with 28. destruct (28 <=? len b); cbn [pbind]; [|now ahead].
    rewrite field_at. change (28 + 8) with 36. destruct (36 <=? len b); cbn [pbind]; [|now ahead].
    rewrite field_at. change (36 + 8) with 44. destruct (44 <=? len b); cbn [pbind]; [|now ahead].
    rewrite field_at. change (44 + 8) with 52. destruct (52 <=? len b); cbn [pbind]; [|now ahead].
    rewrite field_at. change (52 + 8) with 60. destruct (60 <=? len b); cbn [pbind]; [|now ahead].
    rewrite s_flags_at. now ahead.
Qed.
(** The offers of a client would all be accepted. *)
Lemma C118_offers_lem : forall cfg P e level user dom pw target c,
  made cfg P e level user dom pw target c -> negotiable level dom ->
  exists b n, (forall h, answer cfg P c h OpNegociate = OutBytes b) /\ forall cfg', s_negotiate_de cfg' b = POk [] n.
Proof.
  intros cfg P e level user dom pw target c M N. destruct (C25_negotiate_sent_lem _ _ _ _ _ _ _ _ _ M N) as (b & n & A & D & F & _).
  exists b, n. split; [exact A|]. intros cfg'. rewrite <- (D cfg'). apply (C118_messages_lem cfg' b). right.
  assert (E : u32_at b 12 = n_flags n).
  { pose proof (D cfg') as Z. rewrite negotiate_de_spec in Z. destruct (negotiate_headerb b); [|discriminate].
    destruct (oem_field b 16) as [r1 d| |]; try discriminate. cbn [pbind] in Z. destruct (oem_field b 24) as [r2 w| |]; try discriminate.
    cbn [pbind] in Z. injection Z as <-. reflexivity. }
  rewrite E, <- bad_spec. unfold bad, reserved_bits. cbn [existsb]. rewrite !F. clear - N. destruct N as [L _].
  assert (K : level = 0 \/ level = 1 \/ level = 2 \/ level = 3 \/ level = 4 \/ level = 5) by lia.
  destruct K as [ -> | [ -> | [ -> | [ -> | [ -> | -> ]]]]]; destruct dom; vm_compute; discriminate.
Qed.
(** So would its replies at levels 3 to 5, and at levels 0 to 2 those to challenges that are
    not forbidden themselves and have UNICODE set; without UNICODE they would be rejected. *)
Lemma C118_replies_lem : forall cfg P e level user dom pw ch r b, replies cfg P e level user dom pw ch r b -> forall cfg',
  (3 <= level -> s_authenticate_de cfg' b = authenticate_de cfg' b)
  /\ (level <= 2 -> ~ invalid_flags (ch_flags ch) -> N.testbit (ch_flags ch) 0 = true -> s_authenticate_de cfg' b = authenticate_de cfg' b)
  /\ (level <= 2 -> strict cfg' = true -> N.testbit (ch_flags ch) 0 = false -> s_authenticate_de cfg' b = PErr EError).
Proof.
  intros cfg P e level user dom pw ch r b H cfg'. destruct (C57_reply_flags_lem _ _ _ _ _ _ _ _ _ _ H) as [F1 F2].
  destruct (C118_messages_lem cfg' b) as (_ & _ & [Hbad Hok]). split; [|split].
  - intros L. apply Hok. right. rewrite <- bad_spec. unfold bad, reserved_bits. cbn [existsb]. rewrite !(F1 L). vm_compute. discriminate.
  - intros L V U. apply Hok. right. rewrite <- bad_spec in V |- *. intros B. apply V. clear V. revert B. unfold bad, reserved_bits. cbn [existsb].
    rewrite !(F2 L), U. cbn [existsb N.eqb Pos.eqb orb andb negb]. destruct (N.testbit (ch_flags ch) 16); cbn [andb]; rewrite ?orb_false_r; [|tauto].
    intros B. rewrite !orb_true_iff in *. tauto.
  - intros L S U. apply Hbad; [exact S|]. right. right. left. rewrite !(F2 L). cbn [existsb N.eqb Pos.eqb orb]. now split.
Qed.
(** Not all replies to challenges that are not forbidden would be accepted. *)
Lemma C118_replies_refuted_lem : ~ (forall cfg P e level user dom pw ch r b, replies cfg P e level user dom pw ch r b ->
  ~ invalid_flags (ch_flags ch) -> forall cfg', s_authenticate_de cfg' b = authenticate_de cfg' b).
Proof.
  intros H. specialize (H cfg_debug mixing_prims host_env 0 str_User str_Domain str_Password oem_challenge sample_entropy
    (mixing_reply 0 str_Password oem_challenge)).
  assert (R : replies cfg_debug mixing_prims host_env 0 str_User str_Domain str_Password oem_challenge sample_entropy
    (mixing_reply 0 str_Password oem_challenge)) by (apply mixing_replies; solve [closed_valid|vm_compute; reflexivity]).
  specialize (H R). assert (V : ~ invalid_flags (ch_flags oem_challenge)) by (rewrite <- bad_spec; vm_compute; discriminate).
  specialize (H V cfg_strict). destruct (C118_replies_lem _ _ _ _ _ _ _ _ _ _ R cfg_strict) as (_ & _ & Z).
  rewrite Z in H by (try reflexivity; lia). revert H. vm_compute. discriminate.
Qed.
(** Challenges made with the setters would be accepted. *)
Lemma C118_challenges_lem : forall cfg P ops tail, host_le cfg = true ->
  let c := chal_build P challenge_default ops in
  Forall valid_av_pair (all_added P ops) -> Forall (carried_av cfg) (all_added P ops) ->
  (forall s, In (SetTargetName (Some s)) ops -> plain_string s /\ s <> []) ->
  len (utf16le (match get_target_name c with Some s => s | None => [] end)) <= 65535 ->
  len (av_list_bytes cfg (get_target_infos c)) <= 65535 ->
  exists b, serialize cfg (challenge_ser cfg c) = Val b /\ s_challenge_de cfg (b ++ tail) = POk [] c.
Proof.
  intros cfg P ops tail Hle c V C S L1 L2.
  destruct (C17_built_challenge_decodes_lem cfg P ops tail Hle V C S L1 L2) as (b & Eb & D). fold c in Eb, D.
  exists b. split; [exact Eb|]. rewrite <- D. destruct (C118_messages_lem cfg (b ++ tail)) as (_ & [_ Hok] & _). apply Hok. right.
  assert (E : u32_at (b ++ tail) 20 = ch_flags c).
  { rewrite challenge_de_spec in D. destruct (challenge_headerb _ _); [|discriminate].
    destruct (unicode_field _ 12) as [r1 d| |]; try discriminate. cbn [pbind] in D. destruct (infos_field _ _ 40) as [r2 w| |]; try discriminate.
    cbn [pbind] in D. destruct (last_is_not_eol w); [discriminate|]. apply (f_equal (fun x => match x with POk _ y => ch_flags y | _ => 0 end)) in D. exact D. }
  destruct (C16_challenge_builder_lem P ops) as (_ & _ & _ & _ & B & _). fold c in B.
  rewrite E, <- bad_spec. unfold bad, reserved_bits. cbn [existsb]. rewrite !B by discriminate. vm_compute. discriminate.
Qed.

Example C118_ex_lem :
  strict cfg_strict = true /\ invalid_flags 0 /\ s_flags_de cfg_strict (le32 0) = PErr EError /\ s_flags_de cfg_debug (le32 0) = POk [] 0
  /\ ~ invalid_flags 513 /\ s_flags_de cfg_strict (le32 513 ++ [7]) = POk [7] 513
  /\ (forall level, In level [0; 3] ->
      replies cfg_debug mixing_prims host_env level str_User str_Domain str_Password old_challenge sample_entropy (mixing_reply level str_Password old_challenge)
      /\ exists a, s_authenticate_de cfg_strict (mixing_reply level str_Password old_challenge) = POk [] a)
  /\ ~ invalid_flags (ch_flags old_challenge) /\ N.testbit (ch_flags old_challenge) 0 = true
  /\ ~ invalid_flags (ch_flags oem_challenge) /\ N.testbit (ch_flags oem_challenge) 0 = false
  /\ replies cfg_debug mixing_prims host_env 0 str_User str_Domain str_Password oem_challenge sample_entropy (mixing_reply 0 str_Password oem_challenge)
  /\ s_authenticate_de cfg_strict (mixing_reply 0 str_Password oem_challenge) = PErr EError.
Proof.
  split; [reflexivity|]. split; [apply bad_spec; reflexivity|]. split; [reflexivity|]. split; [reflexivity|].
  split; [rewrite <- bad_spec; vm_compute; discriminate|]. split; [reflexivity|]. split.
  { intros level [<- | [<- | []]]; (split; [apply mixing_replies; solve [closed_valid|exact old_valid|vm_compute; reflexivity]|]); eexists; vm_compute; reflexivity. }
  split; [rewrite <- bad_spec; vm_compute; discriminate|]. split; [reflexivity|].
  split; [rewrite <- bad_spec; vm_compute; discriminate|]. split; [reflexivity|].
  split; [apply mixing_replies; solve [closed_valid|vm_compute; reflexivity]|]. vm_compute. reflexivity.
Qed.
