(** Facts about what a client prints and logs. *)
From Coq Require Import ZifyBool ZifyNat ZifyN Ascii String.
From Verif Require Import Base Nom Unicode Wire Structures Prims Messages Crypto Client Debug Log Spec SpecClient SpecLog
  Lib Encode Decode RoundTrip Parse RealPrims Samples FactsEncode FactsDecode FactsBuild DesKey FactsCrypto SamplesClient History FactsClient.

(** ** C78 *)
Lemma vbind_mute {A B} (r : outcome A) (k : A -> voiced B) :
  vbind (mute r) k = match r with Val a => k a | Panic w => mute (Panic w) end.
Proof.
  unfold vbind, mute, no_lines. cbn [fst snd printed warned]. destruct r; [|reflexivity]. cbn [app]. now destruct (k a) as [[] ?].
Qed.
Lemma vbind_snd {A B} (r : voiced A) (k : A -> voiced B) : snd (vbind r k) = (let! a := snd r in snd (k a)).
Proof. unfold vbind. now destruct (snd r). Qed.
Lemma v_neg_snd c : snd (v_send_negociate c) = send_negociate c.
Proof.
  unfold v_send_negociate, send_negociate. rewrite vbind_snd. cbn [snd mute].
  destruct (negociate_message c) as [m|]; [|reflexivity]. cbn [obind]. rewrite vbind_snd. cbn [snd mute].
  destruct (negotiate_ser m []) as [[k b]|]; [|reflexivity]. cbn [obind]. rewrite vbind_snd. cbn [snd print_line obind].
  rewrite vbind_snd. cbn [snd print_line obind]. rewrite vbind_snd. cbn [snd mute]. reflexivity.
Qed.
Lemma v_auth2 cfg P c r : v_send_authenticate_ntlmv2 cfg P c r = mute (send_authenticate_ntlmv2 cfg P c r).
Proof.
  unfold v_send_authenticate_ntlmv2, send_authenticate_ntlmv2. rewrite vbind_mute.
  destruct (get_negotiate c) as [n|]; [|reflexivity]. cbn [obind]. rewrite vbind_mute.
  destruct (get_challenge c) as [ch|]; [|reflexivity]. cbn [obind]. cbv zeta. rewrite vbind_mute.
  destruct (ntlmv2_compute_response _ _ _ _ _ _ _ _ _) as [[[[p lm] nt] k]|]; [|reflexivity]. cbn [obind].
  destruct (encrypt_random_session_key _ _ _ _ _) as [x y]. unfold v_compute_mic. reflexivity.
Qed.
Lemma v_auth cfg P c r : v_send_authenticate cfg P c r = mute (send_authenticate cfg P c r).
Proof.
  unfold v_send_authenticate, send_authenticate, build_authenticate.
  assert (E : match cl_level c with
         | 0 | 1 | 2 => mute (send_authenticate_ntlmv1 P c r)
         | 3 | 4 | 5 => v_send_authenticate_ntlmv2 cfg P c r
         | _ => mute (Panic PUnreachable)
         end = mute match cl_level c with
         | 0 | 1 | 2 => send_authenticate_ntlmv1 P c r
         | 3 | 4 | 5 => send_authenticate_ntlmv2 cfg P c r
         | _ => Panic PUnreachable
         end).
  { rewrite v_auth2. destruct (cl_level c) as [|[[[]|[]|]|[[]|[]|]|]]; reflexivity. }
  rewrite E. clear E. rewrite vbind_mute. destruct (match cl_level c with 0 => _ | _ => _ end) as [a|]; [|reflexivity].
  cbn [obind]. rewrite vbind_mute. destruct (authenticate_ser _ _ _) as [[k b]|]; reflexivity.
Qed.
Lemma v_step_snd cfg P c o : snd (v_step cfg P c o) = step cfg P c o.
Proof. destruct o as [|ch|r]; cbn [v_step step snd]; [now rewrite v_neg_snd|reflexivity|now rewrite v_auth]. Qed.
Lemma v_step_warned cfg P c o : warned (fst (v_step cfg P c o)) = [].
Proof.
  destruct o as [|ch|r]; cbn [v_step fst]; [|reflexivity|now rewrite v_auth].
  unfold v_send_negociate. rewrite vbind_mute. destruct (negociate_message c) as [m|]; [|reflexivity].
  rewrite vbind_mute. destruct (negotiate_ser m []) as [[k b]|]; [|reflexivity].
  unfold vbind at 1. cbn [snd print_line fst warned app]. unfold vbind at 1. cbn [snd print_line fst warned app].
  rewrite vbind_mute. now destruct (slice b 0 k).
Qed.
Lemma neg_ser_run c m : cl_version c = None -> is_string (cl_domain c) -> negociate_message c = Val m ->
  negotiate_ser m [] = if fitsb (negotiate_fields m) then Val (len (negotiate_bytes m), negotiate_bytes m) else Panic PExpect.
Proof.
  intros Hv Hd E. destruct (N.le_gt_cases (cl_level c) 5) as [L|L].
  - rewrite negociate_message_val in E by assumption. apply val_inj in E. subst m.
    rewrite negotiate_ser_spec by now apply neg_message_valid. reflexivity.
  - destruct (negociate_message_panic c L) as [w F]. congruence.
Qed.
Lemma v_step_printed cfg P c o : cl_version c = None -> is_string (cl_domain c) ->
  printed (fst (v_step cfg P c o)) = printed_by o (snd (step cfg P c o)).
Proof.
  intros Hv Hd. destruct o as [|ch|r].
  - rewrite <- v_step_snd. cbn [v_step fst snd]. unfold v_send_negociate. rewrite vbind_mute.
    destruct (negociate_message c) as [m|] eqn:E; [|reflexivity].
    rewrite vbind_mute, (neg_ser_run c m Hv Hd E). destruct (fitsb _); [|reflexivity].
    unfold vbind at 1 3. cbn [snd print_line fst printed app]. unfold vbind at 1 3. cbn [snd print_line fst printed app].
    rewrite !vbind_mute. unfold slice. replace (len (negotiate_bytes m) <? 0) with false by lia. rewrite N.ltb_irrefl. cbn [orb].
    rewrite N.sub_0_r, skipn_O, len_nat, firstn_all. reflexivity.
  - reflexivity.
  - cbn [v_step step fst]. rewrite v_auth. cbn [mute fst printed no_lines].
    now destruct (send_authenticate cfg P c r) as [[b c']|].
Qed.
(** One call, at any point of any history. *)
Lemma C78_one_call_lem : forall cfg P e level user dom pw target c h o,
  made cfg P e level user dom pw target c ->
  let c' := run cfg P c h in
  snd (v_step cfg P c' o) = step cfg P c' o
  /\ printed (fst (v_step cfg P c' o)) = printed_by o (snd (step cfg P c' o))
  /\ warned (fst (v_step cfg P c' o)) = [].
Proof.
  intros cfg P e level user dom pw target c h o Hm c'. split; [apply v_step_snd|]. split; [|apply v_step_warned].
  destruct (made_fresh _ _ _ _ _ _ _ _ _ Hm) as (_ & Hv & Hd).
  destruct (run_dress cfg P c h) as (s & b & E). subst c'. rewrite E. destruct c. apply v_step_printed; assumption.
Qed.
(** A whole history: two lines for each NEGOTIATE sent, and nothing else. *)
Lemma C78_history_lem : forall cfg P e level user dom pw target c h,
  made cfg P e level user dom pw target c ->
  printed_along cfg P c h =
    flat_map (fun b => [text "self.buffer.len() = " ++ decimal (len b); text "size = " ++ decimal (len b)])
      (negotiates_sent cfg P c h)
  /\ warned_along cfg P c h = [].
Proof.
  intros cfg P e level user dom pw target c h Hm. destruct (made_fresh _ _ _ _ _ _ _ _ _ Hm) as (_ & Hv & Hd). clear Hm.
  revert c Hv Hd. induction h as [|o h IH]; intros c Hv Hd; [split; reflexivity|].
  cbn [printed_along warned_along negotiates_sent]. rewrite v_step_snd, v_step_warned, v_step_printed by assumption.
  destruct (step_dress cfg P c o) as (s & b & E).
  destruct (IH (fst (step cfg P c o))) as [I1 I2]; [rewrite E; now destruct c|rewrite E; now destruct c|].
  rewrite I1, I2, flat_map_app. split; [|reflexivity]. f_equal.
  destruct o; cbn [printed_by]; [|reflexivity|reflexivity]. destruct (snd (step cfg P c OpNegociate)); reflexivity.
Qed.
(** [compute_mic] warns exactly if there is no exported key, and then changes nothing. *)
Lemma C78_compute_mic_lem : forall cfg P a n ch,
  snd (v_compute_mic cfg P a n ch) = compute_mic cfg P a n ch
  /\ printed (fst (v_compute_mic cfg P a n ch)) = []
  /\ (a_exported_key a <> None -> warned (fst (v_compute_mic cfg P a n ch)) = [])
  /\ (a_exported_key a = None ->
      warned (fst (v_compute_mic cfg P a n ch)) = [text "Cannot compute MIC as there is no `exported_session_key`."]
      /\ snd (v_compute_mic cfg P a n ch) = Val a).
Proof.
  intros cfg P a n ch. unfold v_compute_mic, compute_mic. destruct (a_exported_key a); cbn; repeat split; easy.
Qed.
Example C78_ex_lem : made cfg_debug real_prims host_env 3 str_User str_Domain str_Password str_target (sample_client 3)
  /\ printed_along cfg_debug real_prims (sample_client 3) [OpNegociate; OpRecvChallenge sample_challenge; OpNegociate] =
     [text "self.buffer.len() = 38"; text "size = 38"; text "self.buffer.len() = 38"; text "size = 38"]%string.
Proof. split; [apply sample_made|]. vm_compute. reflexivity. Qed.
