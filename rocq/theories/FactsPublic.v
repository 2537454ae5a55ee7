(** Facts about challenges made outside the crate. *)
From Coq Require Import ZifyBool ZifyNat ZifyN.
From Verif Require Import Base Nom Unicode Wire Structures Prims Messages Crypto Client Spec SpecBuild SpecCrypto SpecClient SpecRemote SpecPublic
  Lib Encode Decode RoundTrip Parse Samples FactsEncode FactsDecode FactsBuild FactsBuilt DesKey RealPrims FactsCrypto SamplesClient History Reply FactsClient FactsRemote.

(** ** C111 *)
(** lists the adders make *)
Definition closed_list (l : list av_pair) : Prop :=
  l = [] \/ exists f, f <> [] /\ ~ In AvEOL f /\ l = f ++ [AvEOL].
Lemma add_closed c a : a <> AvEOL -> valid_av_pair a -> valid_challenge c -> closed_list (ch_target_infos c) ->
  valid_challenge (add_target_info c a) /\ closed_list (ch_target_infos (add_target_info c a)).
Proof.
  intros Na Va (V1 & V2 & V3 & V4 & V5) [E|(f & N & I & E)]; unfold add_target_info; rewrite E.
  - cbn [is_nil app]. split.
    + split; [exact V1|]. split; [|split; [exact V3|split; [repeat constructor; exact Va|exact V5]]].
      cbn [ch_flags]. change (is_u32 (put_flag (ch_flags c) NTLMSSP_NEGOTIATE_TARGET_INFO true)). apply put_flag_u32; [exact V2|vm_compute; discriminate].
    + right. exists [a]. split; [discriminate|]. split; [intros [H|[]]; congruence|reflexivity].
  - replace (is_nil (f ++ [AvEOL])) with false by (destruct f; reflexivity).
    rewrite insert_before_last_eol. rewrite E in V4. apply Forall_app in V4 as [V4 _]. split.
    + split; [exact V1|]. split; [exact V2|]. split; [exact V3|]. split; [|exact V5].
      cbn [ch_target_infos]. apply Forall_app. split; [exact V4|repeat constructor; exact Va].
    + right. exists (f ++ [a]). split; [now destruct f|]. split.
      * rewrite in_app_iff. intros [H|[H|[]]]; [now apply I|congruence].
      * cbn [ch_target_infos]. now rewrite <- app_assoc.
Qed.
Lemma adds_closed l : forall c, Forall (fun a => a <> AvEOL /\ valid_av_pair a) l -> valid_challenge c -> closed_list (ch_target_infos c) ->
  valid_challenge (fold_left add_target_info l c) /\ closed_list (ch_target_infos (fold_left add_target_info l c)).
Proof.
  induction l as [|a l IH]; intros c H V C; [auto|]. inversion H as [|? ? [H1 H2] H3]; subst.
  destruct (add_closed c a H1 H2 V C) as [V' C']. now apply IH.
Qed.
Lemma typed_adds P o : prims_ok P -> typed (Method o) -> Forall (fun a => a <> AvEOL /\ valid_av_pair a) (added P o).
Proof.
  intros HP H.
  assert (O : forall a, a <> AvEOL -> valid_av_pair a -> Forall (fun a => a <> AvEOL /\ valid_av_pair a) [a]) by (intros; repeat constructor; assumption).
  destruct o; cbn [added typed] in *; try (apply O; [discriminate|exact H]).
  - constructor.
  - destruct H as (H1 & H2 & H3 & H4 & _). unfold env_infos, opt_list.
    destruct (env_COMPUTERNAME e), (env_COMPUTERDNSNAME e), (env_USERDOMAIN e), (env_USERDNSDOMAIN e);
      cbn [opt_map app valid_opt] in *; repeat constructor; try discriminate; cbn [valid_av_pair]; try assumption;
      apply to_uppercase_string; assumption.
Qed.
Lemma public_closed P c o : prims_ok P -> typed o -> valid_challenge c -> closed_list (ch_target_infos c) ->
  valid_challenge (public_apply P c o) /\ closed_list (ch_target_infos (public_apply P c o)).
Proof.
  intros HP T V C. pose proof V as (V1 & V2 & V3 & V4 & V5). destruct o as [o|f|b|v]; cbn [public_apply].
  - assert (D : sets_target o \/ ~ sets_target o) by (destruct o; cbn; tauto). destruct D as [D|D].
    + destruct o; try contradiction. cbn [chal_apply]. unfold set_target_name. split; [|exact C].
      split; [exact T|]. split; [|split; [exact V3|split; [exact V4|exact V5]]]. cbn [ch_flags].
      apply put_flag_u32; [exact V2|vm_compute; discriminate].
    + rewrite apply_adds by exact D. apply adds_closed; [now apply typed_adds|exact V|exact C].
  - split; [|exact C]. repeat split; auto; try apply V3.
  - split; [|exact C]. repeat split; auto; try apply T.
  - split; [|exact C]. repeat split; auto; try apply V3.
Qed.

Lemma public_app P ops o : fold_left (public_apply P) (ops ++ [o]) challenge_default
  = public_apply P (fold_left (public_apply P) ops challenge_default) o.
Proof. now rewrite fold_left_app. Qed.
(** one call for every info *)
Definition adder (a : av_pair) : chal_op :=
  match a with
  | AvEOL => FillFromEnv (mkEnv None None None None None)
  | AvNbComputerName s => AddComputerName s
  | AvNbDomainName s => AddDomainName s
  | AvDnsComputerName s => AddDnsComputerName s
  | AvDnsDomainName s => AddDnsDomainName s
  | AvDnsTreeName s => AddDnsTreeName s
  | AvFlags f => AddFlags f
  | AvTimestamp t => AddTimestamp t
  | AvSingleHost h => AddSingleHost h
  | AvTargetName s => AddTargetName s
  | AvChannelBindings b => AddChannelBindings b
  end.
Lemma adder_applies P c a : a <> AvEOL -> chal_apply P c (adder a) = add_target_info c a.
Proof. destruct a; try reflexivity. congruence. Qed.
Lemma adder_typed a : valid_av_pair a -> typed (Method (adder a)).
Proof. destruct a; try (intros H; exact H). intros _. cbn. repeat split. Qed.
Lemma adders_apply P l : forall c, ~ In AvEOL l ->
  fold_left (public_apply P) (map (fun a => Method (adder a)) l) c = fold_left add_target_info l c.
Proof.
  induction l as [|a l IH]; intros c H; [reflexivity|]. cbn [map fold_left public_apply].
  rewrite adder_applies by (intros ->; apply H; now left). apply IH. intros X. apply H. now right.
Qed.
Lemma adds_infos l : forall c, ch_target_infos c = [] ->
  ch_target_infos (fold_left add_target_info l c) = with_eol l
  /\ ch_target_name (fold_left add_target_info l c) = ch_target_name c.
Proof.
  intros c E. destruct (grown_adds c l [] c) as [(G & _) S].
  - now left.
  - split; [intros _; exact E|]. split; [intros f F; now rewrite F, app_nil_l|]. cbn [is_nil negb]. now rewrite andb_false_r, orb_false_r.
  - split; [now apply G|]. apply S.
Qed.
(** Exactly the challenges whose list of AV pairs has something in it before one EOL
    at its end, or is empty, can be made outside the crate. *)
Lemma C111_makeable_lem : forall P c, prims_ok P ->
  makeable P c <-> valid_challenge c
    /\ (ch_target_infos c = [] \/ exists l, l <> [] /\ ~ In AvEOL l /\ ch_target_infos c = l ++ [AvEOL]).
Proof.
  intros P c HP. split.
  - intros (ops & T & ->). change (valid_challenge (fold_left (public_apply P) ops challenge_default)
      /\ closed_list (ch_target_infos (fold_left (public_apply P) ops challenge_default))).
    induction ops as [|o ops IH] using rev_ind.
    + split; [|now left]. repeat split; try constructor; try (vm_compute; reflexivity); vm_compute; repeat constructor.
    + apply Forall_app in T as [T1 T2]. inversion T2; subst. rewrite public_app.
      destruct (IH T1) as [V C]. now apply public_closed.
  - intros [V C]. pose proof V as (V1 & V2 & V3 & V4 & V5).
    assert (X : exists l, ~ In AvEOL l /\ Forall valid_av_pair l /\ ch_target_infos c = with_eol l).
    { destruct C as [E|(l & N & I & E)]; [exists []; repeat split; auto; intros []|].
      exists l. rewrite E in V4. apply Forall_app in V4 as [V4 _]. repeat split; auto. rewrite E. now destruct l. }
    destruct X as (l & I & Vl & E).
    exists (Method (SetTargetName (ch_target_name c)) :: map (fun a => Method (adder a)) l
            ++ [PutFlags (ch_flags c); PutServerChallenge (ch_server_challenge c); PutVersion (ch_version c)]).
    split.
    + constructor; [exact V1|]. apply Forall_app. split; [|repeat constructor; try assumption; apply V3].
      apply Forall_map. eapply Forall_impl; [|exact Vl]. intros a. apply adder_typed.
    + cbn [fold_left]. rewrite fold_left_app, adders_apply by exact I. cbn [public_apply chal_apply].
      set (c1 := set_target_name challenge_default (ch_target_name c)).
      destruct (adds_infos l c1 eq_refl) as [A B].
      cbn [fold_left public_apply ch_target_name ch_flags ch_server_challenge ch_target_infos ch_version].
      rewrite A, B, <- E. destruct c; reflexivity.
Qed.
(** So code that decodes challenges itself can hand every one over as it was received whose
    list has no EOL but the last, unless the list is nothing but EOL. *)
Lemma C111_received_lem : forall cfg P b r c, prims_ok P -> is_bytes b -> challenge_de cfg b = POk r c ->
  makeable P c <-> (forall l m, ch_target_infos c = l ++ AvEOL :: m -> m = [] /\ l <> []).
Proof.
  intros cfg P b r c HP Hb D. rewrite C111_makeable_lem by exact HP. destruct (decoded_small _ _ _ _ Hb D) as (V & _). split.
  - intros [_ [E|(f & N & I & E)]] l m F; rewrite E in F; [now destruct l|].
    destruct m as [|x m] using rev_ind; [apply app_inj_tail in F as [-> _]; auto|]. exfalso. clear IHm.
    change (l ++ AvEOL :: m ++ [x]) with (l ++ (AvEOL :: m) ++ [x]) in F. rewrite app_assoc in F.
    apply app_inj_tail in F as [-> _]. apply I, in_or_app. right. now left.
  - intros H. split; [exact V|]. destruct (C19_target_infos_end_with_eol_lem _ _ _ _ D) as [E|[l E]]; [now left|right].
    exists l. split; [exact (proj2 (H l [] E))|]. split; [|exact E]. intros I. apply in_split in I as (l1 & l2 & ->).
    rewrite <- app_assoc in E. destruct (H _ _ E) as [F _]. now destruct l2.
Qed.
(** False: every challenge that is received can be handed over. *)
Lemma C111_received_refuted_lem : ~ (forall cfg P b r c, prims_ok P -> is_bytes b -> challenge_de cfg b = POk r c -> makeable P c).
Proof.
  intros H. set (c := mkChallenge None 8388609 [1; 2; 3; 4; 5; 6; 7; 8] [AvEOL] None).
  assert (M : makeable real_prims c).
  { apply (H cfg_debug real_prims (challenge_bytes cfg_debug c) []); [apply real_prims_ok|closed_valid|vm_compute; reflexivity]. }
  apply C111_makeable_lem in M; [|apply real_prims_ok]. destruct M as [_ [E|(l & N & I & E)]]; [discriminate|].
  change (ch_target_infos c) with ([] ++ [AvEOL]) in E. apply app_inj_tail in E as [<- _]. now apply N.
Qed.
(** Exactly when a client answers a challenge made outside the crate. *)
Lemma C111_answers_exactly_lem : forall cfg P e level user dom pw target c h r ws ch,
  made cfg P e level user dom pw target c -> workstation_name P e ws -> is_entropy r ->
  negotiable level dom -> names_short user dom ws -> makeable P ch -> accepts h ch ->
  ((exists m, answer cfg P c h (OpAuthenticate r) = OutBytes m)
   <-> level <= 2 \/ (len (content (opt_map utf16le (get_target_name ch))) <= 65535
                       /\ len (av_list_bytes cfg (get_target_infos ch)) <= 65507 /\ response_time ch r <> None)).
Proof.
  intros cfg P e level user dom pw target c h r ws ch Hm Hw Hr N (S1 & S2 & S3) M A.
  assert (V : valid_challenge ch) by (apply C111_makeable_lem in M; [apply M|apply Hm]).
  rewrite (answer_iff _ _ _ _ _ _ _ _ _ h ch r ws Hm N Hw V Hr A). unfold reply_fits, get_target_name, get_target_infos. split.
  - intros (_ & _ & _ & X). destruct (N.le_gt_cases level 2) as [G|G]; [now left|right].
    destruct X as (F & X & Y); [lia|]. split; [|split; [lia|exact Y]]. 
    exact (Forall_inv F).
  - intros [G|(F & G & T)]; (split; [exact S1|]; split; [exact S2|]; split; [exact S3|]); [intros; lia|].
    intros _. split; [|split; [lia|exact T]]. constructor; [exact F|]. constructor; [|constructor].
    unfold av_list_field. destruct (ch_target_infos ch); cbn [content]; [vm_compute; discriminate|lia].
Qed.
(** False: a client whose clock is set answers every small list.  A target name of 32768
    characters, which no message can carry, stops it at level 3. *)
Lemma C111_named_refuted_lem : ~ (forall cfg P e level user dom pw target c h r ws ch,
  made cfg P e level user dom pw target c -> workstation_name P e ws -> is_entropy r ->
  negotiable level dom -> names_short user dom ws -> makeable P ch -> accepts h ch ->
  len (av_list_bytes cfg (get_target_infos ch)) <= 65507 -> response_time ch r <> None ->
  exists m, answer cfg P c h (OpAuthenticate r) = OutBytes m).
Proof.
  intros H. set (s := repeat 65 (N.to_nat 32768)).
  set (ch := mkChallenge (Some s) 8388613 [1; 2; 3; 4; 5; 6; 7; 8] sample_infos None).
  assert (S : names_short str_User str_Domain (Some str_COMPUTER)) by closed_valid.
  assert (L : len (utf16le s) = 65536) by (vm_compute; reflexivity).
  assert (Hs : is_string s) by (apply Forall_forall; intros x Hx; apply repeat_spec in Hx; subst; reflexivity).
  assert (M : makeable real_prims ch).
  { apply C111_makeable_lem; [exact real_prims_ok|]. split.
    - split; [exact Hs|]. split; [vm_compute; reflexivity|]. split; [closed_valid|]. split; [apply sealed_valid|exact I].
    - right. exists (removelast sample_infos). split; [vm_compute; discriminate|]. split; [|reflexivity].
      cbn. intuition discriminate. }
  destruct (H cfg_debug real_prims host_env 3 str_User str_Domain str_Password str_target (sample_client 3)
              (sample_history ch) sample_entropy (Some str_COMPUTER) ch) as [m E]; auto.
  - apply sample_made.
  - exact sample_workstation.
  - exact sample_entropy_ok.
  - apply sample_negotiable. lia.
  - apply sample_accepts.
  - vm_compute. discriminate.
  - vm_compute. discriminate.
  - assert (E' : exists m, answer cfg_debug real_prims (sample_client 3) (sample_history ch) (OpAuthenticate sample_entropy) = OutBytes m) by eauto.
    apply (C111_answers_exactly_lem _ _ _ _ _ _ _ _ _ _ _ _ _ (sample_made 3) sample_workstation sample_entropy_ok
      (sample_negotiable 3 ltac:(lia)) S M (sample_accepts ch)) in E'.
    destruct E' as [E'|[E' _]]; [lia|]. cbn [get_target_name ch_target_name ch opt_map content] in E'. lia.
Qed.
Example C111_ex_lem :
  makeable real_prims sealed_challenge /\ length (ch_target_infos sealed_challenge) = 7%nat
  /\ is_bytes (challenge_bytes cfg_debug sealed_challenge)
  /\ challenge_de cfg_debug (challenge_bytes cfg_debug sealed_challenge) = POk [] sealed_challenge
  /\ accepts (sample_history sealed_challenge) sealed_challenge
  /\ len (content (opt_map utf16le (get_target_name sealed_challenge))) = 12
  /\ response_time sealed_challenge sample_entropy <> None
  /\ ~ makeable real_prims (mkChallenge None 8388609 [1; 2; 3; 4; 5; 6; 7; 8] [AvNbDomainName str_Domain; AvEOL; AvEOL] None).
Proof.
  split.
  { apply C111_makeable_lem; [exact real_prims_ok|]. split; [exact sealed_valid|]. right.
    exists (removelast sample_infos). split; [vm_compute; discriminate|]. split; [cbn; intuition discriminate|reflexivity]. }
  split; [reflexivity|]. split; [closed_valid|]. split; [vm_compute; reflexivity|]. split; [apply sample_accepts|].
  split; [vm_compute; reflexivity|]. split; [vm_compute; discriminate|].
  intros M. apply C111_makeable_lem in M; [|exact real_prims_ok]. destruct M as [_ [E|(l & _ & I & E)]]; [discriminate|].
  change (ch_target_infos _) with ([AvNbDomainName str_Domain; AvEOL] ++ [AvEOL]) in E. apply app_inj_tail in E as [<- _].
  apply I. right. now left.
Qed.
