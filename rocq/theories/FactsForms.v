(** The printed forms of strings and structures, in full. *)
From Coq Require Import ZifyBool ZifyNat ZifyN Ascii String.
From Verif Require Import Base Nom Unicode Wire Structures Prims Messages Crypto Client Debug Log Print Spec SpecDebug SpecLog SpecPrint SpecForms
  Lib Samples FactsDebug FactsLog FactsPrint.

(** ** C79 *)
Lemma lower_digit_value d : d < 16 -> hex_digit (lower_digit d) = Some d.
Proof.
  intros H. unfold hex_digit, lower_digit. destruct (d <? 10) eqn:E.
  - replace ((48 <=? 48 + d) && (48 + d <=? 57)) with true by lia. f_equal. lia.
  - replace ((48 <=? 87 + d) && (87 + d <=? 57)) with false by lia.
    replace ((97 <=? 87 + d) && (87 + d <=? 102)) with true by lia. f_equal. lia.
Qed.
Lemma lower_hex_numeral fuel : forall n acc, n < 16 ^ N.succ (N.of_nat fuel) ->
  exists d, lower_hex (S fuel) n acc = d ++ acc /\ hex_numeral d n.
Proof.
  assert (B : forall n, n < 16 -> hex_numeral [lower_digit (n mod 16)] n).
  { intros n Hn. apply hex_one. rewrite lower_digit_value by lia. f_equal. lia. }
  induction fuel as [|fuel IH]; intros n acc Hn;
  match goal with |- context [lower_hex (S ?f) n acc] => change (lower_hex (S f) n acc) with
      (let acc := lower_digit (n mod 16) :: acc in if n / 16 =? 0 then acc else lower_hex f (n / 16) acc) end; cbv zeta.
  - assert (n < 16) by exact Hn. replace (n / 16 =? 0) with true by lia. exists [lower_digit (n mod 16)]. auto.
  - destruct (n / 16 =? 0) eqn:E.
    + exists [lower_digit (n mod 16)]. split; [reflexivity|]. apply B. lia.
    + destruct (IH (n / 16) (lower_digit (n mod 16) :: acc)) as (d & H1 & H2).
      { rewrite Nat2N.inj_succ, N.pow_succ_r' in Hn. lia. }
      exists (d ++ [lower_digit (n mod 16)]). rewrite H1, <- app_assoc. split; [reflexivity|].
      replace n with (16 * (n / 16) + n mod 16) at 2 by lia.
      apply hex_more; [exact H2|lia|]. apply lower_digit_value. lia.
Qed.
Lemma char_written esc c : is_scalar c -> written_as esc c (char_debug esc c).
Proof.
  intros Hc. assert (Hc' : c < 1114112) by (unfold is_scalar, is_scalarb in Hc; lia). unfold written_as.
  destruct (c =? 0) eqn:E0; [apply N.eqb_eq in E0; subst; reflexivity|].
  destruct (c =? 9) eqn:E9; [apply N.eqb_eq in E9; subst; reflexivity|].
  destruct (c =? 10) eqn:E10; [apply N.eqb_eq in E10; subst; reflexivity|].
  destruct (c =? 13) eqn:E13; [apply N.eqb_eq in E13; subst; reflexivity|].
  destruct (c =? 34) eqn:E34; [apply N.eqb_eq in E34; subst; reflexivity|].
  destruct (c =? 92) eqn:E92; [apply N.eqb_eq in E92; subst; reflexivity|].
  assert (G : char_debug esc c = if esc c then text "\u{" ++ lower_hex 6 c [] ++ text "}" else [c]).
  { destruct c as [|p]; [easy|]. unfold char_debug. repeat (destruct p as [p|p|]; try reflexivity; try easy). }
  rewrite G. destruct (esc c); [|reflexivity].
  destruct (lower_hex_numeral 5 c []) as (d & H1 & H2); [cbn; lia|]. rewrite app_nil_r in H1. exists d. now rewrite H1.
Qed.
(** Every string: between quotes, with each character as it is or as an escape. *)
Lemma C79_every_string_lem : forall esc s, is_string s ->
  exists l, str_debug esc s = [34] ++ concat l ++ [34] /\ Forall2 (written_as esc) s l.
Proof.
  intros esc s Hs. exists (map (char_debug esc) s). unfold str_debug. rewrite flat_map_concat_map. split; [reflexivity|].
  induction Hs as [|c s Hc Hs IH]; constructor; [now apply char_written|exact IH].
Qed.
Lemma debug_listed l : debug_list l = listed l.
Proof.
  unfold debug_list, listed. destruct l as [|s l]; [reflexivity|]. f_equal.
  rewrite app_assoc. f_equal. revert s. induction l as [|t l IH]; intros s; [cbn; now rewrite app_nil_r|].
  change (comma_separated (s :: t :: l)) with (s ++ text ", " ++ comma_separated (t :: l)). rewrite IH. cbn [flat_map].
  now rewrite <- !app_assoc.
Qed.
Lemma vec_listed {A} (p : A -> rstring) l : vec_debug p l = listed (map p l).
Proof. apply debug_listed. Qed.
Lemma buffer_hex k b : is_buffer k b -> buffer_debug b = hex_of b.
Proof. intros [_ H]. apply C47_buffer_printed_lem, H. Qed.
Ltac written :=
  unfold debug_struct, debug_tuple; cbn [comma_separated map fst snd]; rewrite <- ?app_assoc; rewrite ?text2, <- ?text_append;
  cbn [String.append]; reflexivity.
Lemma flags_written f : av_flags_debug f = av_flags_form f.
Proof. unfold av_flags_debug, av_flags_form, bool_debug, truth. destruct f as [[] [] []]; written. Qed.
Lemma filetime_written t : filetime_debug t = filetime_form t.
Proof. unfold filetime_debug, filetime_form. written. Qed.
Lemma host_written h : single_host_debug h = host_form h.
Proof. unfold single_host_debug, host_form. rewrite !vec_listed. written. Qed.
Lemma pair_written esc a : av_pair_debug esc a = pair_form (str_debug esc) a.
Proof.
  destruct a; unfold av_pair_debug, pair_form; rewrite ?flags_written, ?filetime_written, ?host_written, ?vec_listed; [reflexivity|written..].
Qed.
Lemma lm_written c : valid_lm c -> lm_challenge_debug c = lm_form c.
Proof.
  destruct c as [r|r n]; cbn [valid_lm lm_challenge_debug lm_form]; intros H.
  - rewrite (buffer_hex _ _ H). written.
  - rewrite (buffer_hex _ _ (proj1 H)), (buffer_hex _ _ (proj2 H)). written.
Qed.
Lemma nt_written esc c : valid_nt c -> nt_challenge_debug esc c = nt_form (str_debug esc) c.
Proof.
  destruct c as [r|c]; cbn [valid_nt nt_challenge_debug nt_form]; intros H.
  - rewrite (buffer_hex _ _ H). written.
  - unfold ntv2_debug. rewrite (buffer_hex _ _ (proj1 (proj2 H))), vec_listed, filetime_written.
    rewrite (map_ext _ _ (pair_written esc)). written.
Qed.
(** Every structure is printed as written out in the specification. *)
Lemma C79_structures_form_lem : forall esc,
  (forall x, version_debug x = version_form x)
  /\ (forall x, field_debug x = field_form x)
  /\ (forall x, filetime_debug x = filetime_form x)
  /\ (forall x, single_host_debug x = host_form x)
  /\ (forall x, av_flags_debug x = av_flags_form x)
  /\ (forall x, is_buffer 4 (sg_pad x) -> signature_debug x = signature_form x)
  /\ (forall x, av_pair_debug esc x = pair_form (str_debug esc) x)
  /\ (forall x, valid_lm x -> lm_challenge_debug x = lm_form x)
  /\ (forall x, valid_nt x -> nt_challenge_debug esc x = nt_form (str_debug esc) x)
  /\ (forall i, exists n, In (av_id_code i, n) pair_names /\ av_id_debug i = text n).
Proof.
  intros esc. refine (conj _ (conj _ (conj _ (conj _ (conj _ (conj _ (conj _ (conj _ (conj _ _))))))))).
  - intros x. unfold version_debug, version_form. written.
  - intros x. unfold field_debug, field_form. written.
  - apply filetime_written.
  - apply host_written.
  - apply flags_written.
  - intros x H. unfold signature_debug, signature_form. rewrite (buffer_hex _ _ H). written.
  - apply pair_written.
  - apply lm_written.
  - apply nt_written.
  - intros []; eexists; (split; [|reflexivity]); cbn; tauto.
Qed.
(** The state a client is in, printed. *)
Lemma C79_state_form_lem : forall esc s, client_state_debug esc s =
  match s with
  | StNew => text "New"
  | StNegotiateSent n => text "NegociateSent(" ++ negotiate_debug esc n ++ text ")"
  | StChallengeReceived n c => text "ChallengeReceived(" ++ negotiate_debug esc n ++ text ", " ++ challenge_debug esc c ++ text ")"
  | StAuthenticateSent n c a => text "AuthenticateSent(" ++ negotiate_debug esc n ++ text ", " ++ challenge_debug esc c ++ text ", "
      ++ authenticate_debug esc a ++ text ")"
  end.
Proof. intros esc []; cbn [client_state_debug]; [reflexivity|written..]. Qed.
Example C79_forms_ex_lem :
  is_string [65; 0; 773; 39] /\ str_debug (fun c => c =? 773) [65; 0; 773; 39] = [34] ++ text "A\0\u{305}'" ++ [34]
  /\ hex_numeral (text "305") 773
  /\ av_pair_debug (fun _ => false) (AvFlags (mkAvFlags false true false))
     = text "MsvAvFlags(MsvAvFlags { account_authentication_constrained: false, mic_present: true, generated_spn_from_untrusted_source: false })"
  /\ av_pair_debug (fun _ => false) (AvChannelBindings [1; 255; 0]) = text "MsvAvChannelBindings([1, 255, 0])"
  /\ lm_challenge_debug (LmV2 (repeat 10 16) (repeat 255 8))
     = text "V2(Lmv2Challenge { response: 0a0a0a0a0a0a0a0a0a0a0a0a0a0a0a0a, challenge_from_client: ffffffffffffffff })".
Proof.
  split; [repeat constructor|]. split; [reflexivity|]. split; [|repeat split; reflexivity].
  change (text "305") with (([51] ++ [48]) ++ [53]). change 773 with (16 * (16 * 3 + 0) + 5).
  apply hex_more; [|lia|reflexivity]. apply hex_more; [|lia|reflexivity]. now apply hex_one.
Qed.
