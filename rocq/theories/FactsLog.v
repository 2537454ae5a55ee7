(** Facts about what is logged. *)
From Coq Require Import ZifyBool ZifyNat ZifyN Ascii String.
From Verif Require Import Base Nom Unicode Wire Structures Messages Debug Log Spec SpecLog Lib Encode Decode RoundTrip Parse
  Samples FactsEncode FactsDecode FactsStream.

Ltac Zify.zify_post_hook ::= Z.div_mod_to_equations.

(** ** C77 *)
Lemma lbind_snd {A B} (r : logged A) (k : bytes -> A -> logged B) :
  snd (lbind r k) = (do (i, a) <- snd r; snd (k i a)).
Proof. unfold lbind. now destruct (snd r). Qed.
Lemma lbind_quiet {A B} (r : pres A) (k : bytes -> A -> logged B) :
  lbind (quiet r) k = match r with POk i a => k i a | PErr e => quiet (PErr e) | PPanic w => quiet (PPanic w) end.
Proof. unfold lbind, quiet. cbn [fst snd]. destruct r; cbn [app]; try reflexivity. now destruct (k rest a). Qed.
Lemma warn_tests_eq cfg l : warn_tests cfg l = (map (fun t => text (snd t)) (filter fst l), true).
Proof.
  induction l as [|[c s] l IH]; [reflexivity|]. cbn [warn_tests filter fst]. unfold cfg_features_strict. rewrite IH.
  now destruct c.
Qed.
Lemma validate_log_eq cfg f : validate_log cfg f = (flag_warnings f, true).
Proof.
  unfold validate_log. rewrite warn_tests_eq. f_equal. unfold flag_warnings, flag_tests.
  rewrite !has_flag_testbit.
  change R1 with 28. change R2 with 27. change R3 with 26. change R4 with 24. change R5 with 21. change R6 with 18.
  change R7 with 14. change R8 with 10. change R9 with 8. change R10 with 3.
  change NTLMSSP_TARGET_TYPE_DOMAIN with 16. change NTLMSSP_TARGET_TYPE_SERVER with 17.
  change NTLMSSP_NEGOTIATE_UNICODE with 0. change NTLM_NEGOTIATE_OEM with 1.
  change NTLMSSP_NEGOTIATE_EXTENDED_SESSIONSECURITY with 19. change NTLMSSP_NEGOTIATE_LM_KEY with 7.
  assert (G : forall l : list ((N -> bool) * string),
    map (fun t => text (snd t)) (filter fst (map (fun t : (N -> bool) * string => (fst t f, snd t)) l))
    = map (fun t => text (snd t)) (filter (fun t => fst t f) l)).
  { induction l as [|[c s] l IH]; [reflexivity|]. cbn [map filter fst snd]. destruct (c f); cbn [map]; now rewrite IH. }
  rewrite <- G. reflexivity.
Qed.
Lemma l_flags_at cfg b k : l_flags cfg (drop k b) =
  if k + 4 <=? len b then (flag_warnings (u32_at b k), POk (drop (k + 4) b) (u32_at b k)) else quiet (PErr EError).
Proof.
  unfold l_flags. rewrite lbind_quiet, le_u32_at. destruct (_ <=? _); [|reflexivity].
  rewrite validate_log_eq. reflexivity.
Qed.
Lemma l_flags_snd cfg i : snd (l_flags cfg i) = flags_de cfg i.
Proof.
  unfold l_flags. rewrite lbind_snd. unfold flags_de, verify. cbn [quiet snd]. destruct (le_u32 i); cbn [pbind]; try reflexivity.
  rewrite validate_log_eq, flags_validate. reflexivity.
Qed.
Lemma l_get_data_snd {T} f n (p : parser T) b c : snd (l_get_data_if f n p b c) = get_data_if f p b c.
Proof.
  unfold l_get_data_if, get_data_if. destruct c; [|reflexivity]. destruct (_ =? _); [reflexivity|].
  destruct (slice _ _ _) as [d|w]; [|reflexivity]. rewrite lbind_snd. reflexivity.
Qed.
Lemma l_get_many_snd {T} f n (p : parser T) b c : snd (l_get_many_if f n p b c) = get_many_if f p b c.
Proof.
  unfold l_get_many_if, get_many_if. destruct c; [|reflexivity]. destruct (_ =? _); [reflexivity|].
  destruct (slice _ _ _) as [d|w]; [|reflexivity]. rewrite lbind_snd. reflexivity.
Qed.
Ltac erase_step := 
  match goal with
  | |- snd (lbind _ _) = _ => rewrite lbind_snd;
      match goal with |- pbind ?r _ = pbind ?s _ => replace r with s;
        [destruct s; cbn [pbind]; try reflexivity|
         symmetry; first [reflexivity|apply l_flags_snd|apply l_get_data_snd|apply l_get_many_snd]] end
  end.
(** Forgetting the log gives the decoders of the model. *)
Lemma C77_log_erases_lem : forall cfg b,
  snd (l_negotiate cfg b) = negotiate_de cfg b
  /\ snd (l_challenge cfg b) = challenge_de cfg b
  /\ snd (l_authenticate cfg b) = authenticate_de cfg b.
Proof.
  intros cfg b. split; [|split].
  - unfold l_negotiate, negotiate_de. repeat erase_step.
  - unfold l_challenge, challenge_de. repeat erase_step.
  - unfold l_authenticate, authenticate_de. do 11 erase_step.
    destruct (has_flag _ NTLMSSP_NEGOTIATE_NTLM).
    + rewrite lbind_snd. unfold l_ok_flatten at 1. cbn [snd]. rewrite l_get_data_snd.
      destruct (ok_flatten _); cbn [pbind]; try reflexivity. repeat erase_step.
    + rewrite lbind_snd. unfold l_ok_flatten at 1. cbn [snd]. rewrite l_get_data_snd.
      destruct (ok_flatten _); cbn [pbind]; try reflexivity. repeat erase_step.
Qed.

Lemma text_append s t : text (String.append s t) = text s ++ text t.
Proof. unfold text. induction s as [|c s IH]; [reflexivity|]. cbn. now rewrite IH. Qed.
Lemma empty_line_eq n : empty_line n = no_field n.
Proof. unfold empty_line, no_field. now rewrite !text_append. Qed.
Lemma left_line_eq n k : left_line n k = left_over n k.
Proof. unfold left_line, left_over. rewrite text_append, <- app_assoc. reflexivity. Qed.
Definition consumed_log (n : string) (r : bytes) : list rstring := if len r =? 0 then [] else [left_over n (len r)].
Lemma consumed_log_eq n r : (if is_nil r then [] else [left_line n (len r)]) = consumed_log n r.
Proof. unfold consumed_log. rewrite left_line_eq. destruct r; [reflexivity|]. rewrite len_cons. destruct (_ =? _) eqn:E; [lia|reflexivity]. Qed.
Definition l_at {T} (n : string) (p : parser T) (b : bytes) (o : N) : logged (option T) :=
  if field_len b o =? 0 then ([no_field n], POk [] None)
  else if outsideb b o then quiet (PPanic PSlice)
  else match p (field_data b o) with
       | POk r v => (consumed_log n r, POk [] (Some v))
       | PErr e => quiet (PErr e)
       | PPanic w => quiet (PPanic w)
       end.
Definition l_many_at {T} (n : string) (p : parser T) (b : bytes) (o : N) : logged (list T) :=
  if field_len b o =? 0 then ([no_field n], POk [] [])
  else if outsideb b o then quiet (PPanic PSlice)
  else match many0 p (field_data b o) with
       | POk r v => (consumed_log n r, POk [] v)
       | PErr e => quiet (PErr e)
       | PPanic w => quiet (PPanic w)
       end.
Lemma l_get_data_at {T} n (p : parser T) b o m :
  l_get_data_if (mkField (field_len b o) m (field_off b o)) n p b true = l_at n p b o.
Proof.
  unfold l_get_data_if, get_range, l_at, outsideb; cbn [f_len f_offset fst snd].
  destruct (field_len b o =? 0) eqn:E; [now rewrite empty_line_eq|]. cbn [negb andb].
  destruct (len b <? _) eqn:E2.
  - rewrite slice_panic by lia. reflexivity.
  - rewrite slice_ok by lia. rewrite lbind_quiet. unfold field_data.
    replace (field_off b o + field_len b o - field_off b o) with (field_len b o) by lia.
    destruct (p _); [|reflexivity|reflexivity]. now rewrite consumed_log_eq.
Qed.
Lemma l_get_many_at {T} n (p : parser T) b o m :
  l_get_many_if (mkField (field_len b o) m (field_off b o)) n p b true = l_many_at n p b o.
Proof.
  unfold l_get_many_if, get_range, l_many_at, outsideb; cbn [f_len f_offset fst snd].
  destruct (field_len b o =? 0) eqn:E; [now rewrite empty_line_eq|]. cbn [negb andb].
  destruct (len b <? _) eqn:E2.
  - rewrite slice_panic by lia. reflexivity.
  - rewrite slice_ok by lia. rewrite lbind_quiet. unfold field_data.
    replace (field_off b o + field_len b o - field_off b o) with (field_len b o) by lia.
    destruct (many0 _ _); [|reflexivity|reflexivity]. now rewrite consumed_log_eq.
Qed.
Definition with_log {A} (w : list rstring) (r : logged A) : logged A := (w ++ fst r, snd r).
Lemma lbind_log {A B} w i (a : A) (k : bytes -> A -> logged B) : lbind (w, POk i a) k = with_log w (k i a).
Proof. reflexivity. Qed.
Lemma with_log_err {A} w e : with_log w (quiet (@PErr A e)) = (w, PErr e).
Proof. unfold with_log, quiet. cbn [fst snd]. now rewrite app_nil_r. Qed.
(** the flags have been read *)
Definition reached (ty fo : N) (b : bytes) : bool :=
  (fo + 4 <=? len b) && beq_bytes (sub b 0 8) NTLMSSP && (u32_at b 8 =? ty).
Ltac no_header n b := replace (n <=? len b) with false by lia; rewrite ?andb_false_r; cbn [andb]; try reflexivity.
Lemma l_negotiate_spec cfg b : l_negotiate cfg b =
  if reached 1 12 b then
    with_log (flag_warnings (u32_at b 12))
      (if negotiate_headerb b then
         log (_r, d) <- l_at "domain" oem_de b 16;
         log (_r, w) <- l_at "workstation" oem_de b 24;
         quiet (POk [] (mkNegotiate (u32_at b 12) d w (opt_version_at b (u32_at b 12) 32)))
       else quiet (PErr EError))
  else quiet (PErr EError).
Proof.
  unfold l_negotiate, reached, negotiate_headerb. rewrite lbind_quiet, tag_at.
  destruct (beq_bytes (sub b 0 8) NTLMSSP); [|now rewrite andb_false_r].
  rewrite andb_true_r. change (12 + 4) with 16.
  rewrite lbind_quiet, le_u32_verify_at. change (8 + 4) with 12.
  destruct (12 <=? len b) eqn:E1; cbn [andb]; [|now no_header 16 b].
  destruct (u32_at b 8 =? 1); [|now rewrite andb_false_r]. rewrite andb_true_r.
  rewrite l_flags_at. change (12 + 4) with 16.
  destruct (16 <=? len b) eqn:E2; [|reflexivity]. rewrite lbind_log. f_equal.
  rewrite lbind_quiet, field_at. change (16 + 8) with 24.
  destruct (24 <=? len b) eqn:E3; [|now no_header 32 b].
  rewrite lbind_quiet, field_at. change (24 + 8) with 32.
  destruct (32 <=? len b) eqn:E4; [|reflexivity]. cbn [andb].
  rewrite lbind_quiet, cond_version_at by lia.
  destruct (opt_version_ok b (u32_at b 12) 32); [|reflexivity].
  rewrite !orb_true_r, !l_get_data_at. reflexivity.
Qed.
Lemma l_challenge_spec cfg b : l_challenge cfg b =
  if reached 2 20 b then
    with_log (flag_warnings (u32_at b 20))
      (if challenge_headerb cfg b then
         log (_r, t) <- l_at "target_name" unicode_de b 12;
         log (_r, l) <- l_many_at "target_infos" (av_pair_de cfg) b 40;
         quiet (if last_is_not_eol l then PErr EError
                else POk [] (mkChallenge t (u32_at b 20) (sub b 24 8) l (opt_version_at b (u32_at b 20) 48)))
       else quiet (PErr EError))
  else quiet (PErr EError).
Proof.
  unfold l_challenge, reached, challenge_headerb. rewrite lbind_quiet, tag_at.
  destruct (beq_bytes (sub b 0 8) NTLMSSP); [|now rewrite andb_false_r].
  rewrite andb_true_r. change (20 + 4) with 24. cbn [andb].
  rewrite lbind_quiet, le_u32_verify_at. change (8 + 4) with 12.
  destruct (12 <=? len b) eqn:E1; cbn [andb]; [|now no_header 24 b].
  destruct (u32_at b 8 =? 2); [|now rewrite andb_false_r]. rewrite !andb_true_r.
  rewrite lbind_quiet, field_at. change (12 + 8) with 20.
  destruct (20 <=? len b) eqn:E2; [|now no_header 24 b].
  rewrite l_flags_at. change (20 + 4) with 24.
  destruct (24 <=? len b) eqn:E3; [|reflexivity]. rewrite lbind_log. f_equal.
  rewrite lbind_quiet. unfold buf_de. rewrite take_at. change (24 + N.of_nat 8) with 32. change (N.of_nat 8) with 8. change (8 =? 0) with false.
  destruct (32 <=? len b) eqn:E4; [|now no_header 48 b]. cbn [pbind].
  rewrite lbind_quiet, parse_reserved_at.
  destruct (40 <=? len b) eqn:E5; cbn [andb]; [|now no_header 48 b].
  destruct (negb (strict cfg) || _); [|now rewrite andb_false_r]. rewrite andb_true_r.
  rewrite lbind_quiet, field_at. change (40 + 8) with 48.
  destruct (48 <=? len b) eqn:E6; cbn [andb]; [|reflexivity].
  rewrite lbind_quiet, cond_version_at by lia.
  destruct (opt_version_ok b (u32_at b 20) 48); [|reflexivity].
  rewrite orb_true_r, l_get_data_at, l_get_many_at.
  unfold lbind at 1 3. destruct (snd (l_at _ _ _ _)) as [r t| |]; try reflexivity. cbv zeta.
  match goal with |- (_ ++ fst ?x, snd ?x) = (_ ++ fst ?y, snd ?y) => replace x with y; [reflexivity|] end.
  unfold lbind. destruct (snd (l_many_at _ _ _ _)) as [r' l| |] eqn:Ei; try reflexivity.
  f_equal. cbn [quiet snd].
  destruct (last_is_not_eol l) eqn:El; [|reflexivity].
  unfold get_range; cbn [f_len f_offset fst snd].
  unfold l_many_at in Ei. destruct (field_len b 40 =? 0) eqn:E7.
  { injection Ei as <- <-. discriminate El. }
  unfold outsideb in Ei. rewrite E7 in Ei. cbn [negb andb] in Ei.
  destruct (len b <? field_off b 40 + field_len b 40) eqn:E8; [discriminate|].
  rewrite slice_ok by lia. reflexivity.
Qed.
Lemma l_authenticate_spec cfg b : let fl := u32_at b 60 in l_authenticate cfg b =
  if reached 3 60 b then
    with_log (flag_warnings fl)
      (if authenticate_headerb b then
         log (_r, lm) <-
           (if N.testbit fl 9
            then l_ok_flatten (l_at "lmv1_challenge_response" lmv1_de b 12)
            else l_ok_flatten (l_at "lmv2_challenge_response" lmv2_de b 12));
         log (_r, nt) <- l_at "nt_challenge_response" (nt_challenge_de cfg) b 20;
         log (_r, domain) <- l_at "domain" unicode_de b 28;
         log (_r, user) <- l_at "user" unicode_de b 36;
         log (_r, workstation) <- l_at "workstation" unicode_de b 44;
         log (_r, key) <- (if N.testbit fl 30 then l_at "encrypted_random_session_key" (buf_de 16) b 52
                           else quiet (POk [] None));
         quiet (POk [] (mkAuthenticate lm nt domain user workstation key fl (opt_version_at b fl 64)
                          (sub b (authenticate_mic_off b) 16) None))
       else quiet (PErr EError))
  else quiet (PErr EError).
Proof.
  cbv zeta. unfold l_authenticate, reached, authenticate_headerb. rewrite lbind_quiet, tag_at.
  destruct (beq_bytes (sub b 0 8) NTLMSSP); [|now rewrite andb_false_r].
  rewrite andb_true_r. change (60 + 4) with 64. cbn [andb].
  rewrite lbind_quiet, le_u32_verify_at. change (8 + 4) with 12.
  destruct (12 <=? len b) eqn:E1; cbn [andb]; [|now no_header 64 b].
  destruct (u32_at b 8 =? 3); [|now rewrite andb_false_r]. rewrite !andb_true_r.
  rewrite lbind_quiet, field_at. change (12 + 8) with 20. destruct (20 <=? len b) eqn:E2; [|now no_header 64 b].
  rewrite lbind_quiet, field_at. change (20 + 8) with 28. destruct (28 <=? len b) eqn:E3; [|now no_header 64 b].
  rewrite lbind_quiet, field_at. change (28 + 8) with 36. destruct (36 <=? len b) eqn:E4; [|now no_header 64 b].
  rewrite lbind_quiet, field_at. change (36 + 8) with 44. destruct (44 <=? len b) eqn:E5; [|now no_header 64 b].
  rewrite lbind_quiet, field_at. change (44 + 8) with 52. destruct (52 <=? len b) eqn:E6; [|now no_header 64 b].
  rewrite lbind_quiet, field_at. change (52 + 8) with 60. destruct (60 <=? len b) eqn:E7; [|now no_header 64 b].
  rewrite l_flags_at. change (60 + 4) with 64.
  destruct (64 <=? len b) eqn:E8; [|reflexivity]. rewrite lbind_log. f_equal. cbn [andb].
  rewrite lbind_quiet, cond_version_at by lia.
  destruct (opt_version_ok b (u32_at b 60) 64); [|reflexivity]. cbn [andb].
  change (64 + 8) with 72. fold (authenticate_mic_off b).
  rewrite lbind_quiet. unfold buf_de at 1. rewrite take_at. change (N.of_nat 16) with 16. change (16 =? 0) with false.
  destruct (authenticate_mic_off b + 16 <=? len b); [|reflexivity]. cbn [pbind].
  rewrite !has_flag_testbit. change NTLMSSP_NEGOTIATE_NTLM with 9. change NTLMSSP_NEGOTIATE_KEY_EXCH with 30.
  rewrite !l_get_data_at.
  destruct (N.testbit (u32_at b 60) 30) eqn:E30; [rewrite !l_get_data_at|]; reflexivity.
Qed.
(** ** The lines of an accepted message *)
Lemma lbind_ok {A B} (r : logged A) (k : bytes -> A -> logged B) i v : snd (lbind r k) = POk i v ->
  exists j a, snd r = POk j a /\ snd (k j a) = POk i v /\ fst (lbind r k) = fst r ++ fst (k j a).
Proof.
  unfold lbind. destruct (snd r) as [j a|e|w]; cbn [fst snd]; try discriminate. intros H. eauto.
Qed.
Lemma consumed_log_field n b o r : field_len b o <> 0 -> consumed_log n r = field_warnings n b o (len r).
Proof. intros H. unfold consumed_log, field_warnings. now replace (field_len b o =? 0) with false by lia. Qed.
Lemma l_at_oem n b o i v : snd (l_at n oem_de b o) = POk i v -> fst (l_at n oem_de b o) = field_warnings n b o 0.
Proof.
  unfold l_at, field_warnings. destruct (field_len b o =? 0) eqn:E; [reflexivity|].
  destruct (outsideb b o); [discriminate|]. rewrite oem_de_spec. now destruct (from_utf8 _).
Qed.
Lemma l_at_text n b o i v : snd (l_at n unicode_de b o) = POk i v ->
  fst (l_at n unicode_de b o) = field_warnings n b o (text_left b o).
Proof.
  unfold l_at, field_warnings, text_left. destruct (field_len b o =? 0) eqn:E; [reflexivity|].
  destruct (outsideb b o); [discriminate|]. rewrite unicode_de_spec. reflexivity.
Qed.
Lemma l_at_infos n cfg b o i v : is_bytes b -> snd (l_many_at n (av_pair_de cfg) b o) = POk i v ->
  exists k, infos_left cfg b o k /\ fst (l_many_at n (av_pair_de cfg) b o) = field_warnings n b o k.
Proof.
  intros Hb. unfold l_many_at, field_warnings. destruct (field_len b o =? 0) eqn:E.
  { intros _. exists 0. split; [constructor; lia|reflexivity]. }
  destruct (outsideb b o); [discriminate|].
  destruct (walk_total cfg (field_data b o)) as [w Hw]. pose proof (many0_agrees _ _ _ (sub_bytes _ _ _ Hb) Hw) as Hm.
  unfold field_data in *.
  destruct w; cbn [walk_agrees] in Hm; [|destruct Hm as [k Hm]|]; rewrite Hm; try discriminate.
  intros H. cbn [snd] in H. exists (len rest). split; [|reflexivity]. eapply il_walk; [lia|exact Hw].
Qed.
Lemma l_at_nt n cfg b o i v : is_bytes b -> snd (l_at n (nt_challenge_de cfg) b o) = POk i v ->
  exists k, nt_left cfg b o k /\ fst (l_at n (nt_challenge_de cfg) b o) = field_warnings n b o k.
Proof.
  intros Hb. unfold l_at, field_warnings. destruct (field_len b o =? 0) eqn:E.
  { intros _. exists 0. split; [constructor; lia|reflexivity]. }
  destruct (outsideb b o) eqn:Eo; [discriminate|]. pose proof (field_data_len b o Eo ltac:(lia)) as Hl.
  unfold nt_challenge_de, alt2, pmap. rewrite ntv2_de_at by (apply sub_bytes, Hb).
  destruct (ntv2_header cfg (field_data b o)) eqn:Eh; cbn [pbind].
  - destruct (walk_total cfg (skipn 28 (field_data b o))) as [w Hw].
    pose proof (many0_agrees _ _ _ (is_bytes_skipn 28 _ (sub_bytes b (field_off b o) (field_len b o) Hb)) Hw) as Hm.
    change (skipn 28 (field_data b o)) with (drop 28 (field_data b o)) in Hm. unfold field_data in *.
    change (skipn 28 (sub b (field_off b o) (field_len b o))) with (drop 28 (sub b (field_off b o) (field_len b o))) in Hm.
    destruct w; cbn [walk_agrees] in Hm; [|destruct Hm as [k Hm]|]; rewrite Hm; cbn [pbind]; try discriminate.
    intros H. exists (len rest). split; [|reflexivity]. eapply nl_v2; [lia|exact Eh|exact Hw].
  - unfold ntv1_de, pmap, buf_de. rewrite <- (drop_0 (field_data b o)), take_at, drop_0, Hl.
    change (0 + N.of_nat 24) with 24. change (N.of_nat 24) with 24. change (24 =? 0) with false.
    destruct (24 <=? field_len b o) eqn:E24; cbn [pbind]; [|discriminate].
    intros _. exists (field_len b o - 24). split; [apply nl_v1; [lia|exact Eh|lia]|].
    cbn [fst]. rewrite (consumed_log_field _ b o) by lia. rewrite drop_len, Hl. unfold field_warnings. now rewrite E.
Qed.
Lemma l_at_buf n k b o i v : (0 < k)%nat -> snd (l_at n (buf_de k) b o) = POk i v ->
  fst (l_at n (buf_de k) b o) = field_warnings n b o (field_len b o - N.of_nat k).
Proof.
  intros Hk. unfold l_at, field_warnings. destruct (field_len b o =? 0) eqn:E; [reflexivity|].
  destruct (outsideb b o) eqn:Eo; [discriminate|]. pose proof (field_data_len b o Eo ltac:(lia)) as Hl.
  unfold buf_de. rewrite <- (drop_0 (field_data b o)), take_at, Hl, N.add_0_l.
  replace (N.of_nat k =? 0) with false by lia.
  destruct (N.of_nat k <=? field_len b o) eqn:Ek; cbn [pbind]; [|discriminate].
  intros _. cbn [fst]. unfold consumed_log. rewrite drop_len, Hl. reflexivity.
Qed.
Lemma l_lm_log b fl i v :
  let r := if N.testbit fl 9 then l_ok_flatten (l_at "lmv1_challenge_response" lmv1_de b 12)
           else l_ok_flatten (l_at "lmv2_challenge_response" lmv2_de b 12) in
  fl = u32_at b 60 -> snd r = POk i v -> fst r = lm_warnings b.
Proof.
  cbv zeta. intros ->. unfold lm_warnings, l_ok_flatten.
  destruct (N.testbit (u32_at b 60) 9); cbn [fst snd]; unfold l_at, field_warnings;
    (destruct (field_len b 12 =? 0) eqn:E; [reflexivity|]);
    (destruct (outsideb b 12) eqn:Eo; [discriminate|]); pose proof (field_data_len b 12 Eo ltac:(lia)) as Hl.
  - unfold lmv1_de, pmap, buf_de. rewrite <- (drop_0 (field_data b 12)), take_at, Hl.
    change (0 + N.of_nat 24) with 24. change (N.of_nat 24) with 24. change (24 =? 0) with false.
    destruct (24 <=? field_len b 12) eqn:E24; cbn [pbind fst quiet]; intros _.
    + unfold consumed_log. rewrite drop_len, Hl. reflexivity.
    + now replace (field_len b 12 - 24 =? 0) with true by lia.
  - unfold lmv2_de, buf_de. rewrite <- (drop_0 (field_data b 12)), take_at, Hl.
    change (0 + N.of_nat 16) with 16. change (N.of_nat 16) with 16. change (16 =? 0) with false.
    destruct (16 <=? field_len b 12) eqn:E16; cbn [pbind].
    2:{ intros _. cbn [fst quiet]. now replace (field_len b 12 - 24 =? 0) with true by lia. }
    rewrite take_at, Hl. change (16 + N.of_nat 8) with 24. change (N.of_nat 8) with 8. change (8 =? 0) with false.
    destruct (24 <=? field_len b 12) eqn:E24; cbn [pbind fst quiet]; intros _.
    + unfold consumed_log. rewrite drop_len, Hl. reflexivity.
    + now replace (field_len b 12 - 24 =? 0) with true by lia.
Qed.
Lemma with_log_ok {A} w (r : logged A) i v : snd (with_log w r) = POk i v -> snd r = POk i v /\ fst (with_log w r) = w ++ fst r.
Proof. auto. Qed.
Lemma C77_negotiate_log_lem : forall cfg b n, negotiate_de cfg b = POk [] n ->
  fst (l_negotiate cfg b) =
    flag_warnings (n_flags n) ++ field_warnings "domain" b 16 0 ++ field_warnings "workstation" b 24 0.
Proof.
  intros cfg b n H. destruct (C77_log_erases_lem cfg b) as (E & _ & _). rewrite <- E in H. clear E.
  rewrite l_negotiate_spec in *. destruct (reached 1 12 b); [|discriminate].
  apply with_log_ok in H as [H ->]. destruct (negotiate_headerb b); [|discriminate].
  apply lbind_ok in H as (i1 & d & H1 & H & ->). apply lbind_ok in H as (i2 & w & H2 & H & ->).
  injection H as <-. cbn [n_flags quiet fst]. rewrite app_nil_r.
  now rewrite (l_at_oem _ _ _ _ _ H1), (l_at_oem _ _ _ _ _ H2).
Qed.
Lemma C77_challenge_log_lem : forall cfg b c, is_bytes b -> challenge_de cfg b = POk [] c ->
  exists k, infos_left cfg b 40 k
  /\ fst (l_challenge cfg b) =
       flag_warnings (ch_flags c) ++ field_warnings "target_name" b 12 (text_left b 12)
       ++ field_warnings "target_infos" b 40 k.
Proof.
  intros cfg b c Hb H. destruct (C77_log_erases_lem cfg b) as (_ & E & _). rewrite <- E in H. clear E.
  rewrite l_challenge_spec in *. destruct (reached 2 20 b); [|discriminate].
  apply with_log_ok in H as [H ->]. destruct (challenge_headerb cfg b); [|discriminate].
  apply lbind_ok in H as (i1 & d & H1 & H & ->). apply lbind_ok in H as (i2 & l & H2 & H & ->).
  cbn [quiet fst snd] in *. destruct (last_is_not_eol l); [discriminate|]. injection H as <-. cbn [ch_flags].
  destruct (l_at_infos _ _ _ _ _ _ Hb H2) as (k & Hk & ->). exists k. split; [exact Hk|].
  now rewrite app_nil_r, (l_at_text _ _ _ _ _ H1).
Qed.
Lemma C77_authenticate_log_lem : forall cfg b a, is_bytes b -> authenticate_de cfg b = POk [] a ->
  exists k, nt_left cfg b 20 k
  /\ fst (l_authenticate cfg b) =
       flag_warnings (a_flags a) ++ lm_warnings b ++ field_warnings "nt_challenge_response" b 20 k
       ++ field_warnings "domain" b 28 (text_left b 28) ++ field_warnings "user" b 36 (text_left b 36)
       ++ field_warnings "workstation" b 44 (text_left b 44) ++ key_warnings b.
Proof.
  intros cfg b a Hb H. destruct (C77_log_erases_lem cfg b) as (_ & _ & E). rewrite <- E in H. clear E.
  rewrite l_authenticate_spec in *. destruct (reached 3 60 b); [|discriminate].
  apply with_log_ok in H as [H ->]. destruct (authenticate_headerb b); [|discriminate].
  apply lbind_ok in H as (i1 & lm & H1 & H & ->). apply l_lm_log in H1; [|reflexivity]. rewrite H1.
  apply lbind_ok in H as (i2 & nt & H2 & H & ->). destruct (l_at_nt _ _ _ _ _ _ Hb H2) as (k & Hk & ->).
  exists k. split; [exact Hk|].
  apply lbind_ok in H as (i3 & d & H3 & H & ->). rewrite (l_at_text _ _ _ _ _ H3).
  apply lbind_ok in H as (i4 & u & H4 & H & ->). rewrite (l_at_text _ _ _ _ _ H4).
  apply lbind_ok in H as (i5 & w & H5 & H & ->). rewrite (l_at_text _ _ _ _ _ H5).
  apply lbind_ok in H as (i6 & key & H6 & H & ->).
  match type of H6 with snd ?r = _ => assert (K : fst r = key_warnings b) end.
  { unfold key_warnings. destruct (N.testbit _ 30); [|reflexivity].
    assert (K16 : (0 < 16)%nat) by lia. rewrite (l_at_buf _ _ _ _ _ _ K16 H6). reflexivity. }
  rewrite K. clear K H6. cbn [quiet fst snd] in *. injection H as <-. cbn [a_flags].
  rewrite app_nil_r. reflexivity.
Qed.

(** ** Any input: flag lines first, then lines of known forms only *)
Lemma flag_warnings_known f : Forall known_line (flag_warnings f).
Proof.
  unfold flag_warnings. apply Forall_forall. intros x Hx. apply in_map_iff in Hx as (t & <- & Ht).
  apply filter_In in Ht as [Ht _]. now constructor.
Qed.
Lemma l_at_known {T} n (p : parser T) b o : In n field_names -> is_bytes b ->
  (forall d r v, is_bytes d -> p d = POk r v -> len r <= len d) -> Forall known_line (fst (l_at n p b o)).
Proof.
  intros Hn Hb Hp. unfold l_at. destruct (field_len b o =? 0) eqn:E; [constructor; [apply known_empty, Hn|constructor]|].
  destruct (outsideb b o) eqn:Eo; [constructor|]. pose proof (field_data_len b o Eo ltac:(lia)) as Hl.
  assert (field_len b o < 65536) by (unfold field_len; apply u16_at_u16, Hb).
  destruct (p _) eqn:Ep; cbn [fst quiet]; try constructor. apply Hp in Ep; [|apply sub_bytes, Hb].
  unfold consumed_log. destruct (len rest =? 0) eqn:El; [constructor|]. constructor; [apply known_left; [exact Hn|lia]|constructor].
Qed.
Lemma l_many_known {T} n (p : parser T) b o : In n field_names -> is_bytes b ->
  (forall d r v, is_bytes d -> many0 p d = POk r v -> len r <= len d) -> Forall known_line (fst (l_many_at n p b o)).
Proof.
  intros Hn Hb Hp. unfold l_many_at. destruct (field_len b o =? 0) eqn:E; [constructor; [apply known_empty, Hn|constructor]|].
  destruct (outsideb b o) eqn:Eo; [constructor|]. pose proof (field_data_len b o Eo ltac:(lia)) as Hl.
  assert (field_len b o < 65536) by (unfold field_len; apply u16_at_u16, Hb).
  destruct (many0 _ _) eqn:Ep; cbn [fst quiet]; try constructor. apply Hp in Ep; [|apply sub_bytes, Hb].
  unfold consumed_log. destruct (len rest =? 0) eqn:El; [constructor|]. constructor; [apply known_left; [exact Hn|lia]|constructor].
Qed.

Lemma lbind_known {A B} (r : logged A) (k : bytes -> A -> logged B) : Forall known_line (fst r) ->
  (forall i a, Forall known_line (fst (k i a))) -> Forall known_line (fst (lbind r k)).
Proof.
  intros Hr Hk. unfold lbind. destruct (snd r); cbn [fst]; [|exact Hr|exact Hr]. apply Forall_app. auto.
Qed.
Lemma oem_left d r v : is_bytes d -> oem_de d = POk r v -> len r <= len d.
Proof. intros _. rewrite oem_de_spec. destruct (from_utf8 d); [|discriminate]. intros [= <- _]. cbn. lia. Qed.
Lemma unicode_left d r v : is_bytes d -> unicode_de d = POk r v -> len r <= len d.
Proof.
  intros Hd. rewrite unicode_de_spec. intros [= <- _]. destruct (read_utf16_inv d Hd) as [_ E].
  rewrite E at 2. rewrite len_app. lia.
Qed.
Lemma infos_left_le cfg d r v : is_bytes d -> many0 (av_pair_de cfg) d = POk r v -> len r <= len d.
Proof.
  intros Hd. destruct (walk_total cfg d) as [w Hw]. pose proof (many0_agrees _ _ _ Hd Hw) as Hm.
  destruct w; cbn [walk_agrees] in Hm; [|destruct Hm as [k Hm]|]; rewrite Hm; try discriminate.
  intros [= <- <-]. pose proof (walk_size _ _ _ _ _ Hw eq_refl). lia.
Qed.
Lemma buf_left n d r v : is_bytes d -> buf_de n d = POk r v -> len r <= len d.
Proof.
  intros _. unfold buf_de. rewrite <- (drop_0 d), take_at, ?drop_0.
  destruct (_ <=? _); [|destruct (_ =? _); [|discriminate]]; intros [= <- _]; rewrite ?drop_len; lia.
Qed.

Lemma lm1_left d r v : is_bytes d -> lmv1_de d = POk r v -> len r <= len d.
Proof.
  unfold lmv1_de, pmap. intros Hd. destruct (buf_de 24 d) eqn:E; try discriminate. cbn [pbind].
  intros [= <- _]. exact (buf_left _ _ _ _ Hd E).
Qed.
Lemma lm2_left d r v : is_bytes d -> lmv2_de d = POk r v -> len r <= len d.
Proof.
  unfold lmv2_de, buf_de. intros _. rewrite <- (drop_0 d), take_at. change (N.of_nat 16 =? 0) with false.
  destruct (_ <=? _); [|discriminate]. cbn [pbind]. rewrite take_at. change (N.of_nat 8 =? 0) with false.
  destruct (_ <=? _); [|discriminate]. cbn [pbind]. intros [= <- _]. rewrite !drop_len. lia.
Qed.
Lemma nt_left_le cfg d r v : is_bytes d -> nt_challenge_de cfg d = POk r v -> len r <= len d.
Proof.
  intros Hd. unfold nt_challenge_de, alt2, pmap. rewrite ntv2_de_at by exact Hd.
  destruct (ntv2_header cfg d); cbn [pbind].
  - destruct (many0 _ _) eqn:E; cbn [pbind].
    + intros [= <- _]. apply infos_left_le in E; [|apply is_bytes_skipn, Hd]. rewrite drop_len in E. lia.
    + destruct e; [|discriminate].
      unfold ntv1_de, pmap. destruct (buf_de 24 d) eqn:E2; try discriminate. cbn [pbind].
      intros [= <- _]. exact (buf_left _ _ _ _ Hd E2).
    + discriminate.
  - unfold ntv1_de, pmap. destruct (buf_de 24 d) eqn:E; try discriminate. cbn [pbind].
    intros [= <- _]. exact (buf_left _ _ _ _ Hd E).
Qed.
Ltac in_names := unfold field_names; cbn [In]; tauto.
Lemma logs_intro ty fo b lines rest : Forall known_line rest ->
  lines = (if reached ty fo b then flag_warnings (u32_at b fo) ++ rest else []) -> logs ty fo b lines.
Proof.
  intros Hr ->. unfold reached, logs, is_message. split.
  - intros H1 [H2 H3]. replace (fo + 4 <=? len b) with true by lia. apply beq_bytes_eq in H2. rewrite H2.
    replace (u32_at b 8 =? ty) with true by lia. exists rest. auto.
  - intros H. destruct (_ && _) eqn:E; [exfalso|reflexivity].
    apply andb_prop in E as [E E3]. apply andb_prop in E as [E1 E2]. apply beq_bytes_eq in E2.
    destruct H as [H|H]; [lia|]. apply H. split; [exact E2|lia].
Qed.
(** Lines about the flags exactly if the flags were reached; after them only lines of known
    forms, so nothing of the content of a field. *)
Lemma C77_any_input_lem : forall cfg b, is_bytes b ->
  logs 1 12 b (fst (l_negotiate cfg b))
  /\ logs 2 20 b (fst (l_challenge cfg b))
  /\ logs 3 60 b (fst (l_authenticate cfg b)).
Proof.
  intros cfg b Hb. split; [|split].
  - rewrite l_negotiate_spec. cbv zeta.
    match goal with |- logs _ _ _ (fst (if _ then with_log _ ?r else _)) => apply logs_intro with (fst r) end;
      [|now destruct (reached 1 12 b)].
    destruct (negotiate_headerb b); [|constructor].
    apply lbind_known; [apply l_at_known; [in_names|exact Hb|exact oem_left]|intros _ d].
    apply lbind_known; [apply l_at_known; [in_names|exact Hb|exact oem_left]|intros _ w]. constructor.
  - rewrite l_challenge_spec. cbv zeta.
    match goal with |- logs _ _ _ (fst (if _ then with_log _ ?r else _)) => apply logs_intro with (fst r) end;
      [|now destruct (reached 2 20 b)].
    destruct (challenge_headerb cfg b); [|constructor].
    apply lbind_known; [apply l_at_known; [in_names|exact Hb|exact unicode_left]|intros _ d].
    apply lbind_known; [apply l_many_known; [in_names|exact Hb|exact (infos_left_le cfg)]|intros _ w]. constructor.
  - rewrite l_authenticate_spec. cbv zeta.
    match goal with |- logs _ _ _ (fst (if _ then with_log _ ?r else _)) => apply logs_intro with (fst r) end;
      [|now destruct (reached 3 60 b)].
    destruct (authenticate_headerb b); [|constructor].
    apply lbind_known; [destruct (N.testbit _ 9); apply l_at_known; [in_names|exact Hb| |in_names|exact Hb|];
      [exact lm1_left|exact lm2_left]|intros _ lm].
    apply lbind_known; [apply l_at_known; [in_names|exact Hb|exact (nt_left_le cfg)]|intros _ nt].
    apply lbind_known; [apply l_at_known; [in_names|exact Hb|exact unicode_left]|intros _ d].
    apply lbind_known; [apply l_at_known; [in_names|exact Hb|exact unicode_left]|intros _ u].
    apply lbind_known; [apply l_at_known; [in_names|exact Hb|exact unicode_left]|intros _ w].
    apply lbind_known; [|intros _ key; constructor].
    destruct (N.testbit _ 30); [|constructor]. apply l_at_known; [in_names|exact Hb|exact (buf_left 16)].
Qed.
(** Numbers in lines are in decimal, without leading zeros. *)
Lemma decimal_go_spec fuel : forall n acc, n < 2 ^ N.succ (N.of_nat fuel) ->
  exists d, decimal_go (S fuel) n acc = d ++ acc /\ Forall is_digit d /\ decimal_value d = n
    /\ (n <> 0 -> hd 48 d <> 48) /\ d <> [].
Proof.
  induction fuel as [|fuel IH]; intros n acc Hn;
  match goal with |- context [decimal_go (S ?f) n acc] => change (decimal_go (S f) n acc) with
      (let acc := (48 + n mod 10) :: acc in if n / 10 =? 0 then acc else decimal_go f (n / 10) acc) end; cbv zeta.
  - assert (n < 2) by exact Hn. replace (n / 10 =? 0) with true by lia. exists [48 + n mod 10].
    split; [reflexivity|]. split; [constructor; [unfold is_digit; lia|constructor]|].
    unfold decimal_value; cbn [fold_left hd]. repeat split; [lia|lia|easy].
  - destruct (n / 10 =? 0) eqn:E.
    + exists [48 + n mod 10].
      split; [reflexivity|]. split; [constructor; [unfold is_digit; lia|constructor]|].
      unfold decimal_value; cbn [fold_left hd]. repeat split; [lia|lia|easy].
    + destruct (IH (n / 10) ((48 + n mod 10) :: acc)) as (d & H1 & H2 & H3 & H4 & H5).
      { rewrite Nat2N.inj_succ, N.pow_succ_r' in Hn. lia. }
      exists (d ++ [48 + n mod 10]). rewrite H1, <- app_assoc. split; [reflexivity|].
      split; [apply Forall_app; split; [exact H2|constructor; [unfold is_digit; lia|constructor]]|].
      split; [unfold decimal_value in *; rewrite fold_left_app, H3; cbn [fold_left]; lia|].
      split; [|now destruct d]. intros _. destruct d as [|c d]; [easy|]. apply H4. lia.
Qed.
(** Numbers in lines are in decimal, without leading zeros. *)
Lemma C77_decimal_lem : forall n, Forall is_digit (decimal n) /\ decimal_value (decimal n) = n
  /\ (n <> 0 -> hd 48 (decimal n) <> 48) /\ (n = 0 -> decimal n = [48]).
Proof.
  intros n. destruct (decimal_go_spec (N.to_nat (N.log2 n)) n []) as (d & H1 & H2 & H3 & H4 & _).
  { rewrite N2Nat.id. destruct (N.eq_dec n 0) as [->|Hn]; [reflexivity|]. apply N.log2_spec. lia. }
  rewrite app_nil_r in H1. unfold decimal. rewrite H1. repeat split; try assumption.
  intros ->. rewrite <- H1. reflexivity.
Qed.

Example C77_ex_lem :
  let b := challenge_bytes cfg_debug (mkChallenge (Some [65; 0; 66]) 268435457 (repeat 7 8) [] None) in
  is_bytes b /\ challenge_de cfg_debug b = POk [] (mkChallenge (Some [65]) 268435457 (repeat 7 8) [] None)
  /\ fst (l_challenge cfg_debug b) =
       [text "flags.has_flag(R1)"; text "Not all is consumed for target_name. 4 bytes remaning";
        text "Flag for target_infos is set but field is empty"]%string.
Proof. cbv zeta. split; [closed_valid|]. split; vm_compute; reflexivity. Qed.
