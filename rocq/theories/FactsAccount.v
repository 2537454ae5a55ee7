(** Facts about creating a client. *)
From Coq Require Import ZifyBool ZifyNat ZifyN.
From Verif Require Import Base Nom Unicode Wire Structures Prims Messages Crypto Client Spec SpecBuild SpecCrypto SpecClient Lib Encode Decode RoundTrip Parse Samples FactsEncode FactsDecode FactsBuild DesKey RealPrims FactsCrypto SamplesClient History Reply FactsClient.

Ltac Zify.zify_post_hook ::= Z.div_mod_to_equations.

(** ** C35 *)
Lemma workstation_exists P e : usable_host_name e -> exists w, get_workstation_name P e = Val w.
Proof.
  intros H. unfold get_workstation_name. destruct (env_COMPUTERNAME e) as [s|] eqn:E1; [eauto|].
  destruct (env_etc_hostname e) as [s|] eqn:E2; [|eauto].
  rewrite first_line_spec. destruct s as [|x s]; cbn [is_nil].
  - destruct H as [H|H]; destruct H; assumption.
  - destruct (split_once 46 _) as [[a b]|]; eauto.
Qed.
(** Exactly when there is a client: the password must have an LM hash, and the host a name source. *)
Lemma C35_client_exists_iff_lem : forall cfg P e level user dom pw target,
  (exists c, new_with_domain cfg P e level user dom pw target = Val c)
  <-> lm_hashable P pw /\ usable_host_name e.
Proof.
  intros cfg P e level user dom pw target. unfold new_with_domain, compute_ntlm_hashes. rewrite <- lmowfv1_val. split.
  - intros [c H]. destruct (lmowfv1 P pw) as [k|]; [|discriminate]. cbn [obind] in H. split; [eauto|].
    destruct (get_workstation_name P e) as [w|] eqn:E; [|discriminate]. now apply get_workstation_val in E.
  - intros [[k K] U]. rewrite K. cbn [obind]. destruct (workstation_exists P e U) as [w ->]. cbn [obind]. eauto.
Qed.
(** In particular for every ASCII password, however long, and every user name,
    domain and target, on a host with a name source. *)
Lemma C35_ascii_password_lem : forall cfg P e level username pw target, prims_ok P ->
  is_ascii pw -> usable_host_name e -> exists c, client_new cfg P e level username pw target = Val c.
Proof.
  intros cfg P e level username pw target HP HA HU.
  assert (G : forall user dom, exists c, new_with_domain cfg P e level user dom pw target = Val c).
  { intros user dom. apply C35_client_exists_iff_lem. split; [|exact HU]. apply lmowfv1_val.
    rewrite lmowfv1_ascii by assumption. eauto. }
  unfold client_new. destruct (split_once 92 username) as [[d u]|]; [apply G|].
  destruct (split_once 64 username) as [[u d]|]; apply G.
Qed.
(** The password "aaaaaae" with an acute accent on the e; an empty /etc/hostname. *)
Lemma C35_client_new_refuted_lem :
  ~ (forall cfg P e level username pw target, prims_ok P -> usable_host_name e ->
       exists c, client_new cfg P e level username pw target = Val c)
  /\ ~ (forall cfg P e level username pw target, prims_ok P -> is_ascii pw ->
       exists c, client_new cfg P e level username pw target = Val c).
Proof.
  split; intros H.
  - destruct (H cfg_debug real_prims host_env 3 str_User [97; 97; 97; 97; 97; 97; 233] [] real_prims_ok) as [c E];
      [left; discriminate|]. vm_compute in E. discriminate E.
  - destruct (H cfg_debug real_prims (mkEnv None None None None (Some [])) 3 str_User str_Password [] real_prims_ok) as [c E];
      [unfold is_ascii; closed_valid|]. vm_compute in E. discriminate E.
Qed.
(** Neither the user name nor the target can make it fail. *)
Lemma C35_names_irrelevant_lem : forall cfg P e level level' username username' pw target target',
  (exists c, client_new cfg P e level username pw target = Val c) ->
  exists c, client_new cfg P e level' username' pw target' = Val c.
Proof.
  assert (G : forall cfg P e level username pw target,
    (exists c, client_new cfg P e level username pw target = Val c) <-> lm_hashable P pw /\ usable_host_name e).
  { intros cfg P e level username pw target. unfold client_new.
    destruct (split_once 92 username) as [[d u]|]; [apply C35_client_exists_iff_lem|].
    destruct (split_once 64 username) as [[u d]|]; apply C35_client_exists_iff_lem. }
  intros cfg P e level level' username username' pw target target' H. apply G. now apply G in H.
Qed.
(** A password with characters outside ASCII that has an LM hash: "e-acute euro H". *)
Example C35_ex_lem : usable_host_name bare_env /\ usable_host_name host_env /\ is_ascii str_Password
  /\ (exists c, new_with_domain cfg_debug real_prims bare_env 3 str_User str_Domain str_accent [] = Val c).
Proof.
  split; [right; discriminate|]. split; [left; discriminate|]. split; [unfold is_ascii; closed_valid|].
  eexists. vm_compute. reflexivity.
Qed.

(** ** C37 *)
Lemma C37_backslash_lem : forall cfg P e level user dom pw target, ~ In BACKSLASH dom ->
  client_new cfg P e level (dom ++ BACKSLASH :: user) pw target = new_with_domain cfg P e level user dom pw target.
Proof.
  intros cfg P e level user dom pw target H. unfold client_new.
  assert (E : split_once 92 (dom ++ BACKSLASH :: user) = Some (dom, user)) by (apply split_once_some; split; [reflexivity|exact H]).
  now rewrite E.
Qed.
Lemma C37_at_lem : forall cfg P e level user dom pw target, ~ In BACKSLASH (user ++ AT :: dom) -> ~ In AT user ->
  client_new cfg P e level (user ++ AT :: dom) pw target = new_with_domain cfg P e level user dom pw target.
Proof.
  intros cfg P e level user dom pw target H H'. unfold client_new.
  apply split_once_none in H. unfold BACKSLASH in H. rewrite H.
  assert (E : split_once 64 (user ++ AT :: dom) = Some (user, dom)) by (apply split_once_some; split; [reflexivity|exact H']).
  now rewrite E.
Qed.
Lemma C37_plain_lem : forall cfg P e level user pw target, ~ In BACKSLASH user -> ~ In AT user ->
  client_new cfg P e level user pw target = new_with_domain cfg P e level user [] pw target.
Proof.
  intros cfg P e level user pw target H H'. unfold client_new.
  apply split_once_none in H, H'. unfold BACKSLASH in H. unfold AT in H'. now rewrite H, H'.
Qed.
(** Every name is in one of these cases, and the parts are kept in the client. *)
Lemma C37_nothing_lost_lem : forall cfg P e level username pw target c,
  client_new cfg P e level username pw target = Val c ->
  (exists dom user, username = dom ++ BACKSLASH :: user /\ ~ In BACKSLASH dom
     /\ cl_domain c = dom /\ cl_username c = user)
  \/ (exists dom user, username = user ++ AT :: dom /\ ~ In BACKSLASH username /\ ~ In AT user
     /\ cl_domain c = dom /\ cl_username c = user)
  \/ (~ In BACKSLASH username /\ ~ In AT username /\ cl_domain c = [] /\ cl_username c = username).
Proof.
  intros cfg P e level username pw target c.
  assert (G : forall user dom, new_with_domain cfg P e level user dom pw target = Val c ->
            cl_domain c = dom /\ cl_username c = user).
  { intros user dom. unfold new_with_domain. destruct (compute_ntlm_hashes _ _ _ _ _) as [[[k1 k2] k3]|]; [|discriminate].
    cbn [obind]. destruct (get_workstation_name P e); [|discriminate]. cbn [obind]. intros H. apply val_inj in H.
    rewrite <- H. split; reflexivity. }
  unfold client_new. destruct (split_once 92 username) as [[d u]|] eqn:E1.
  - intros H. apply G in H. apply split_once_some in E1. left. exists d, u. tauto.
  - apply split_once_none in E1. destruct (split_once 64 username) as [[u d]|] eqn:E2.
    + intros H. apply G in H. apply split_once_some in E2. right. left. exists d, u. tauto.
    + apply split_once_none in E2. intros H. apply G in H. right. right. tauto.
Qed.
(** "Domain\User@Domain\" and "User@Domain" *)
Example C37_ex_lem : ~ In BACKSLASH str_Domain /\ ~ In BACKSLASH (str_User ++ AT :: str_Domain) /\ ~ In AT str_User
  /\ exists c, client_new cfg_debug real_prims host_env 3 (str_Domain ++ BACKSLASH :: str_User ++ AT :: str_Domain ++ [BACKSLASH])
                 str_Password [] = Val c
       /\ cl_username c = str_User ++ AT :: str_Domain ++ [BACKSLASH].
Proof.
  split; [intros H; cbn in H; unfold BACKSLASH in H; lia|].
  split; [intros H; cbn in H; unfold BACKSLASH, AT in H; lia|].
  split; [intros H; cbn in H; unfold AT in H; lia|].
  eexists. split; vm_compute; reflexivity.
Qed.

(** ** C38 *)
(** Every client that was made has the workstation name of its environment,
    and there is only one. *)
Lemma C38_workstation_lem : forall cfg P e level user dom pw target c,
  new_with_domain cfg P e level user dom pw target = Val c ->
  workstation_name P e (cl_workstation c) /\ forall w, workstation_name P e w -> w = cl_workstation c.
Proof.
  intros cfg P e level user dom pw target c H.
  assert (G : get_workstation_name P e = Val (cl_workstation c)).
  { unfold new_with_domain in H. destruct (compute_ntlm_hashes _ _ _ _ _) as [[[k1 k2] k3]|]; [|discriminate].
    cbn [obind] in H. destruct (get_workstation_name P e) as [w|]; [|discriminate]. cbn [obind] in H. apply val_inj in H.
    rewrite <- H. reflexivity. }
  apply get_workstation_val in G. destruct G as [U W]. split; [exact W|].
  intros w Hw. assert (G' : get_workstation_name P e = Val w) by (apply get_workstation_val; auto).
  assert (G : get_workstation_name P e = Val (cl_workstation c)) by (apply get_workstation_val; auto).
  apply val_inj. congruence.
Qed.
(** Trimming is determined by its description. *)
Lemma C38_trimmed_unique_lem : forall s t t', trimmed s t -> trimmed s t' -> t = t'.
Proof. intros s t t' H H'. apply trimmed_trim in H, H'. congruence. Qed.
(** " my-host.example.org\r\nother.line\n": "MY-HOST" *)
Example C38_ex_lem :
  let e := mkEnv None None None None (Some ([32; 109; 121; 45; 104; 111; 115; 116; 46; 101; 120; 97; 109; 112; 108; 101;
             46; 111; 114; 103; 13; 10; 111; 116; 104; 101; 114; 46; 108; 105; 110; 101; 10])) in
  (exists c, new_with_domain cfg_debug real_prims e 3 str_User str_Domain str_Password [] = Val c
     /\ cl_workstation c = Some [77; 89; 45; 72; 79; 83; 84])
  /\ trimmed [32; 109; 121; 45; 104; 111; 115; 116] [109; 121; 45; 104; 111; 115; 116].
Proof.
  split; [eexists; split; vm_compute; reflexivity|].
  apply trimmed_trim. vm_compute. reflexivity.
Qed.
