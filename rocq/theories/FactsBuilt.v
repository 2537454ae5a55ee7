(** Challenges that were decoded and are then built further. *)
From Coq Require Import ZifyBool ZifyNat ZifyN.
From Verif Require Import Base Nom Unicode Wire Structures Prims Messages Spec SpecBuild Lib Encode Decode RoundTrip Parse Samples FactsEncode FactsDecode FactsBuild.

Ltac Zify.zify_post_hook ::= Z.div_mod_to_equations.

(** ** C16 *)
Lemma apply_adds P c o : ~ sets_target o -> chal_apply P c o = fold_left add_target_info (added P o) c.
Proof.
  intros H. destruct o; try reflexivity; [now destruct H|].
  cbn [chal_apply added]. unfold fill_from_env, env_infos.
  destruct (env_COMPUTERNAME e), (env_COMPUTERDNSNAME e), (env_USERDOMAIN e), (env_USERDNSDOMAIN e); reflexivity.
Qed.
(** [c] is [c0] with the infos [l] added. *)
Definition grown (c0 : challenge) (l : list av_pair) (c : challenge) : Prop :=
  (ch_target_infos c0 = [] -> ch_target_infos c = with_eol l)
  /\ (forall f, ch_target_infos c0 = f ++ [AvEOL] -> ch_target_infos c = f ++ l ++ [AvEOL])
  /\ N.testbit (ch_flags c) 23 = N.testbit (ch_flags c0) 23 || (is_nil (ch_target_infos c0) && negb (is_nil l)).
Lemma grown_add c0 l c a : eol_terminated (ch_target_infos c0) -> grown c0 l c ->
  grown c0 (l ++ [a]) (add_target_info c a) /\ same_but_infos c (add_target_info c a).
Proof.
  intros E (G1 & G2 & G3). destruct E as [E|[f E]].
  - specialize (G1 E). destruct (add_info_spec c l a G1) as (A & B & C).
    split; [|exact B]. split; [intros _; exact A|]. split; [intros f F; rewrite E in F; now destruct f|].
    rewrite C, G3, E, is_nil_app. cbn [is_nil andb negb]. destruct (is_nil l), (N.testbit (ch_flags c0) 23); reflexivity.
  - specialize (G2 f E).
    assert (H : add_target_info c a = mkChallenge (ch_target_name c) (ch_flags c) (ch_server_challenge c)
       (insert_before_last (ch_target_infos c) a) (ch_version c)).
    { unfold add_target_info. rewrite G2. destruct f; [destruct l|]; reflexivity. }
    rewrite H. split; [|repeat split; auto].
    split; [intros X; rewrite E in X; now destruct f|]. split.
    + intros f' F. rewrite E in F. apply app_inj_tail in F as [<- _]. cbn [ch_target_infos].
      rewrite G2, app_assoc, insert_before_last_eol, <- !app_assoc. reflexivity.
    + cbn [ch_flags]. rewrite G3. assert (N : is_nil (ch_target_infos c0) = false) by (rewrite E; now destruct f).
      rewrite N. reflexivity.
Qed.
Lemma grown_adds c0 x : forall l c, eol_terminated (ch_target_infos c0) -> grown c0 l c ->
  grown c0 (l ++ x) (fold_left add_target_info x c) /\ same_but_infos c (fold_left add_target_info x c).
Proof.
  induction x as [|a x IH]; intros l c E G; [rewrite app_nil_r; split; [exact G|apply same_refl]|].
  destruct (grown_add c0 l c a E G) as [G' S]. cbn [fold_left].
  destruct (IH _ _ E G') as [G2 S2]. rewrite <- app_assoc in G2. split; [exact G2|eauto using same_trans].
Qed.
Definition rebuilt (P : prims) (c0 : challenge) (ops : list chal_op) (c : challenge) : Prop :=
  grown c0 (all_added P ops) c
  /\ last_set sets_target SetTargetName (ch_target_name c0) ops (ch_target_name c)
  /\ (Exists sets_target ops -> N.testbit (ch_flags c) 2 = is_some (ch_target_name c))
  /\ (Forall (fun o => ~ sets_target o) ops -> N.testbit (ch_flags c) 2 = N.testbit (ch_flags c0) 2)
  /\ (forall i, i <> 2 -> i <> 23 -> N.testbit (ch_flags c) i = N.testbit (ch_flags c0) i)
  /\ ch_server_challenge c = ch_server_challenge c0 /\ ch_version c = ch_version c0 /\ is_u32 (ch_flags c).
Lemma rebuild P c0 ops : is_u32 (ch_flags c0) -> eol_terminated (ch_target_infos c0) -> rebuilt P c0 ops (chal_build P c0 ops).
Proof.
  intros U E. induction ops as [|o ops IH] using rev_ind.
  - split; [split; [intros H; exact H|split; [intros f H; exact H|cbn; now rewrite andb_false_r, orb_false_r]]|].
    split; [left; split; [constructor|reflexivity]|]. split; [intros H; inversion H|]. repeat split; auto.
  - unfold chal_build in *. rewrite fold_left_app. cbn [fold_left].
    set (c := fold_left (chal_apply P) ops c0) in *.
    destruct IH as (G & L & B1 & B2 & B3 & S & V & U').
    assert (Hadd : all_added P (ops ++ [o]) = all_added P ops ++ added P o).
    { unfold all_added. rewrite flat_map_app. cbn [flat_map]. now rewrite app_nil_r. }
    destruct (last_set_app sets_target SetTargetName _ _ o _ I L) as [L1 L2].
    unfold rebuilt. rewrite Hadd.
    assert (D : sets_target o \/ ~ sets_target o) by (destruct o; cbn; auto). destruct D as [D|D].
    + destruct o; try (now destruct D). cbn [chal_apply added]. rewrite app_nil_r.
      destruct (set_target_spec c v U') as (T1 & T2 & T3 & T4 & T5 & T6).
      split. { destruct G as (G1 & G2 & G3). unfold grown. rewrite T2, T5. auto. }
      rewrite T1, T3, T4. split; [now apply L1|].
      split; [intros _; now rewrite T5|]. split.
      { intros F. apply Forall_app in F as [_ F]. inversion F as [|? ? F1 F2]. now destruct F1. }
      split; [|auto]. intros i N1 N2. rewrite T5. replace (i =? 2) with false by lia. now apply B3.
    + rewrite apply_adds by exact D. destruct (grown_adds c0 (added P o) _ c E G) as [G' (S1 & S2 & S3 & S4 & S5)].
      split; [exact G'|]. rewrite S1, S2, S3. split; [auto|].
      split. { intros X. apply Exists_app in X as [X|X]; [rewrite S5 by discriminate; auto|]. inversion X; subst; [contradiction|]. match goal with H : Exists _ [] |- _ => inversion H end. }
      split. { intros X. apply Forall_app in X as [X _]. rewrite S5 by discriminate. auto. }
      split; [|auto]. intros i N1 N2. rewrite S5 by exact N2. now apply B3.
Qed.
(** A decoded challenge, whatever calls follow: the infos are inserted before
    the EOL it came with, the rest stays as it was received. *)
Lemma C16_decoded_challenge_lem : forall cfg P b r c0 ops, is_bytes b -> challenge_de cfg b = POk r c0 ->
  let c := chal_build P c0 ops in
  (get_target_infos c0 = [] -> get_target_infos c = with_eol (all_added P ops))
  /\ (forall l, get_target_infos c0 = l ++ [AvEOL] -> get_target_infos c = l ++ all_added P ops ++ [AvEOL])
  /\ last_set sets_target SetTargetName (get_target_name c0) ops (get_target_name c)
  /\ N.testbit (ch_flags c) 23
     = N.testbit (ch_flags c0) 23 || (is_nil (get_target_infos c0) && negb (is_nil (all_added P ops)))
  /\ (Exists sets_target ops -> N.testbit (ch_flags c) 2 = is_some (get_target_name c))
  /\ (Forall (fun o => ~ sets_target o) ops -> N.testbit (ch_flags c) 2 = N.testbit (ch_flags c0) 2)
  /\ (forall i, i <> 2 -> i <> 23 -> N.testbit (ch_flags c) i = N.testbit (ch_flags c0) i)
  /\ ch_server_challenge c = ch_server_challenge c0 /\ ch_version c = ch_version c0.
Proof.
  intros cfg P b r c0 ops Hb H c. pose proof (C19_target_infos_end_with_eol_lem _ _ _ _ H) as E.
  apply C53_decoded_challenge_lem in H as [_ (_ & _ & F & _)]; [|exact Hb].
  destruct (rebuild P c0 ops) as ((G1 & G2 & G3) & L & B1 & B2 & B3 & S & V & _);
    [rewrite F; now apply u32_at_u32|exact E|]. fold c in G1, G2, G3, L, B1, B2, B3, S, V. auto 12.
Qed.
(** False: a challenge to which an info was added announces target infos.  One
    that came with infos and without the flag never gets it. *)
Lemma C16_announced_refuted_lem : ~ (forall cfg P b r c0 s, is_bytes b -> challenge_de cfg b = POk r c0 ->
  N.testbit (ch_flags (chal_build P c0 [AddComputerName s])) 23 = true).
Proof.
  intros H.
  set (c0 := mkChallenge None 1 [1; 2; 3; 4; 5; 6; 7; 8] [AvNbDomainName str_Domain; AvEOL] None).
  specialize (H cfg_debug (mkPrims (fun _ => []) (fun _ => []) (fun _ _ => []) (fun _ _ => []) (fun _ _ => []) (fun c => [c]))
    (challenge_bytes cfg_debug c0) [] c0 str_COMPUTER ltac:(closed_valid) ltac:(vm_compute; reflexivity)).
  revert H. vm_compute. discriminate.
Qed.
Example C16_decoded_ex_lem : forall P,
  let c := mkChallenge (Some str_Server) 8388613 [1; 2; 3; 4; 5; 6; 7; 8] [AvNbDomainName str_Domain; AvEOL] None in
  is_bytes (challenge_bytes cfg_debug c) /\ challenge_de cfg_debug (challenge_bytes cfg_debug c) = POk [] c
  /\ chal_build P c [AddTimestamp (mkFileTime 1 2); SetTargetName None; AddComputerName str_COMPUTER]
     = mkChallenge None 8388609 [1; 2; 3; 4; 5; 6; 7; 8]
         [AvNbDomainName str_Domain; AvTimestamp (mkFileTime 1 2); AvNbComputerName str_COMPUTER; AvEOL] None.
Proof. intros P c. split; [closed_valid|]. split; [vm_compute; reflexivity|reflexivity]. Qed.

(** ** C17 *)
(** A decoded challenge built further from values that can be represented
    decodes to itself when it fits. *)
Lemma C17_decoded_challenge_lem : forall cfg P b r c0 ops tail, host_le cfg = true ->
  is_bytes b -> challenge_de cfg b = POk r c0 ->
  let c := chal_build P c0 ops in
  Forall valid_av_pair (all_added P ops) -> Forall (carried_av cfg) (all_added P ops) ->
  (forall s, In (SetTargetName (Some s)) ops -> plain_string s) -> get_target_name c <> Some [] ->
  len (utf16le (match get_target_name c with Some s => s | None => [] end)) <= 65535 ->
  len (av_list_bytes cfg (get_target_infos c)) <= 65535 ->
  exists b', serialize cfg (challenge_ser cfg c) = Val b' /\ challenge_de cfg (b' ++ tail) = POk [] c.
Proof.
  intros cfg P b r c0 ops tail Hle Hb H c Hv Hc Ht Ne Hl1 Hl2.
  apply C53_decoded_challenge_lem in H as [_ H]; [|exact Hb].
  destruct (challenge_says_good cfg b c0 Hle Hb H) as ((_ & U & SC & AV & VV) & (_ & AC & E & R) & T0).
  destruct (rebuild P c0 ops U E) as ((G1 & G2 & _) & L & _ & _ & B3 & S & V & U').
  fold c in G1, G2, L, B3, S, V, U'.
  assert (T : carried_string (ch_target_name c)).
  { unfold get_target_name in Ne. destruct (ch_target_name c) as [s|] eqn:X; [|exact I].
    assert (plain_string s).
    { destruct L as [[_ L]|(pre & post & -> & _)]; [rewrite <- L in T0; exact T0|].
      apply Ht. apply in_or_app. right. now left. }
    split; [assumption|intros ->; now apply Ne]. }
  assert (W : Forall valid_av_pair (ch_target_infos c) /\ Forall (carried_av cfg) (ch_target_infos c)
     /\ eol_terminated (ch_target_infos c)).
  { destruct E as [E|[f E]].
    - rewrite (G1 E). destruct (all_added P ops) as [|x l]; [split; [constructor|split; [constructor|now left]]|].
      split; [apply Forall_app; split; [exact Hv|repeat constructor]|].
      split; [apply Forall_app; split; [exact Hc|repeat constructor]|]. right. now exists (x :: l).
    - rewrite (G2 f E). rewrite E in AV, AC. apply Forall_app in AV as [AV _]. apply Forall_app in AC as [AC _].
      split; [repeat (apply Forall_app; split); auto; repeat constructor|].
      split; [repeat (apply Forall_app; split); auto; repeat constructor|]. right. exists (f ++ all_added P ops).
      now rewrite <- app_assoc. }
  destruct W as (W1 & W2 & W3).
  assert (VC : valid_challenge c).
  { split; [destruct (ch_target_name c); [apply T|exact I]|]. split; [exact U'|]. rewrite S, V. auto. }
  assert (F : fits (challenge_fields cfg c)).
  { apply fits_intro. intros f [<-|[<-|[]]].
    - unfold get_target_name in Hl1. destruct (ch_target_name c); [exact Hl1|cbn; lia].
    - unfold get_target_infos in Hl2. destruct (ch_target_infos c); [cbn; lia|exact Hl2]. }
  assert (CC : carried_challenge cfg c).
  { split; [exact F|]. split; [exact T|]. split; [exact W2|]. split; [exact W3|].
    rewrite V. unfold revision_ok in *. rewrite B3 by discriminate. exact R. }
  exists (challenge_bytes cfg c). split.
  - rewrite challenge_serialize by exact VC. apply fitsb_fits in F. now rewrite F.
  - now apply challenge_round_trip.
Qed.
Example C17_decoded_ex_lem : forall P,
  let c0 := mkChallenge (Some str_Server) 8388613 [1; 2; 3; 4; 5; 6; 7; 8] [AvNbDomainName str_Domain; AvEOL] None in
  let c := chal_build P c0 sample_ops in
  is_bytes (challenge_bytes cfg_debug c0) /\ challenge_de cfg_debug (challenge_bytes cfg_debug c0) = POk [] c0
  /\ get_target_name c = Some str_COMPUTER /\ length (get_target_infos c) = 5%nat
  /\ len (av_list_bytes cfg_debug (get_target_infos c)) <= 65535.
Proof.
  intros P c0 c. split; [closed_valid|]. split; [vm_compute; reflexivity|]. split; [reflexivity|].
  split; [reflexivity|]. subst c c0. vm_compute. discriminate.
Qed.
