(** What ties a reply to the names of the account: letter case, and which
    names the responses are computed from. *)
From Coq Require Import ZifyBool ZifyNat ZifyN.
From Verif Require Import Base Nom Unicode Wire Structures Prims Messages Crypto Client Spec SpecBuild SpecCrypto SpecClient SpecTrace SpecNames Lib Encode Decode RoundTrip Parse Samples FactsEncode FactsDecode FactsBuild DesKey RealPrims FactsCrypto SamplesClient History Reply FactsClient FactsReply FactsTrace Inject SamplesNames.

(** ** C92 *)
(** Clients whose user names are the same in upper case send the same
    responses, flags, domain and workstation and keep the same session key. *)
Lemma C92_user_case_lem : forall cfg P e level user user' dom pw target target' c c' h h' ch r b b' K K',
  made cfg P e level user dom pw target c -> made cfg P e level user' dom pw target' c' ->
  to_uppercase P user = to_uppercase P user' ->
  concludes cfg P c h ch r b K -> concludes cfg P c' h' ch r b' K' ->
  K = K' /\ (forall o, In o [12; 20; 28; 44; 52] -> field_data b o = field_data b' o) /\ u32_at b 60 = u32_at b' 60.
Proof.
  intros cfg P e level user user' dom pw target target' c c' h h' ch r b b' K K' M M' U C C'.
  pose proof (concludes_replies _ _ _ _ _ _ _ _ _ _ _ _ _ _ M C) as H.
  pose proof (concludes_replies _ _ _ _ _ _ _ _ _ _ _ _ _ _ M' C') as H'.
  destruct (replies_workstation _ _ _ _ _ _ _ _ _ _ H) as [ws W].
  destruct (N.le_gt_cases level 2) as [L|L].
  - destruct (replies_lm _ _ _ _ _ _ _ _ _ _ H) as [klm Hk].
    destruct (replies_v1 _ _ _ _ _ _ _ _ _ _ _ _ H L W Hk) as (_ & _ & _ & V & F & ->).
    destruct (replies_v1 _ _ _ _ _ _ _ _ _ _ _ _ H' L W Hk) as (_ & _ & _ & V' & F' & ->).
    pose proof (concludes_v1 _ _ _ _ _ _ _ _ _ _ _ _ _ _ _ M L Hk C) as EK.
    pose proof (concludes_v1 _ _ _ _ _ _ _ _ _ _ _ _ _ _ _ M' L Hk C') as EK'.
    destruct (v1_by_offset _ _ _ _ _ _ _ _ _ _ V F) as (H1 & H2 & H3 & H4 & H5 & H6 & H7 & H8).
    destruct (v1_by_offset _ _ _ _ _ _ _ _ _ _ V' F') as (H1' & H2' & H3' & H4' & H5' & H6' & H7' & H8').
    split; [congruence|]. split; [|congruence].
    intros o Ho. cbn [In] in Ho. destruct Ho as [<-|[<-|[<-|[<-|[<-|[]]]]]]; congruence.
  - assert (L3 : 3 <= level) by lia.
    destruct (replies_v2 _ _ _ _ _ _ _ _ _ _ _ H L3 W) as (_ & _ & _ & _ & _ & t & T & _ & V & F & ->).
    destruct (replies_v2 _ _ _ _ _ _ _ _ _ _ _ H' L3 W) as (_ & _ & _ & _ & _ & t' & T' & _ & V' & F' & ->).
    rewrite T in T'. apply some_inj in T'. subst t'.
    pose proof (concludes_v2 _ _ _ _ _ _ _ _ _ _ _ _ _ _ _ M L3 T C) as EK.
    pose proof (concludes_v2 _ _ _ _ _ _ _ _ _ _ _ _ _ _ _ M' L3 T C') as EK'.
    destruct (v2_by_offset _ _ _ _ _ _ _ _ _ _ V F) as (H1 & H2 & H3 & H4 & H5 & H6 & H7 & H8).
    destruct (v2_by_offset _ _ _ _ _ _ _ _ _ _ V' F') as (H1' & H2' & H3' & H4' & H5' & H6' & H7' & H8').
    assert (E2 : ntowfv2 cfg P user' (ntowfv1 cfg P pw) dom = ntowfv2 cfg P user (ntowfv1 cfg P pw) dom)
      by (unfold ntowfv2; now rewrite U).
    clear H8 H8'. rewrite E2 in H1', H2', H3', H4', H5', H6', H7', EK'. rewrite E2.
    split; [congruence|]. split; [|congruence].
    intros o Ho. cbn [In] in Ho. destruct Ho as [<-|[<-|[<-|[<-|[<-|[]]]]]]; try congruence.
    apply (app_inv_tail (zeros 4)). congruence.
Qed.
(** Levels 0 to 2: the responses and the session key are the same for every
    account with that password. *)
Lemma C92_names_ignored_lem : forall cfg P e e' level user user' dom dom' pw target target' c c' h h' ch r b b' K K', level <= 2 ->
  made cfg P e level user dom pw target c -> made cfg P e' level user' dom' pw target' c' ->
  concludes cfg P c h ch r b K -> concludes cfg P c' h' ch r b' K' ->
  K = K' /\ (forall o, In o [12; 20; 52] -> field_data b o = field_data b' o).
Proof.
  intros cfg P e e' level user user' dom dom' pw target target' c c' h h' ch r b b' K K' L M M' C C'.
  pose proof (concludes_replies _ _ _ _ _ _ _ _ _ _ _ _ _ _ M C) as H.
  pose proof (concludes_replies _ _ _ _ _ _ _ _ _ _ _ _ _ _ M' C') as H'.
  destruct (replies_workstation _ _ _ _ _ _ _ _ _ _ H) as [ws W].
  destruct (replies_workstation _ _ _ _ _ _ _ _ _ _ H') as [ws' W'].
  destruct (replies_lm _ _ _ _ _ _ _ _ _ _ H) as [klm Hk].
  destruct (replies_v1 _ _ _ _ _ _ _ _ _ _ _ _ H L W Hk) as (_ & _ & _ & V & F & ->).
  destruct (replies_v1 _ _ _ _ _ _ _ _ _ _ _ _ H' L W' Hk) as (_ & _ & _ & V' & F' & ->).
  pose proof (concludes_v1 _ _ _ _ _ _ _ _ _ _ _ _ _ _ _ M L Hk C) as EK.
  pose proof (concludes_v1 _ _ _ _ _ _ _ _ _ _ _ _ _ _ _ M' L Hk C') as EK'.
  destruct (v1_by_offset _ _ _ _ _ _ _ _ _ _ V F) as (H1 & H2 & H3 & H4 & H5 & H6 & H7 & H8).
  destruct (v1_by_offset _ _ _ _ _ _ _ _ _ _ V' F') as (H1' & H2' & H3' & H4' & H5' & H6' & H7' & H8').
  split; [congruence|]. intros o Ho. cbn [In] in Ho. destruct Ho as [<-|[<-|[<-|[]]]]; congruence.
Qed.
(** Levels 3 to 5: accounts with the same LM response to the same challenge
    have the same upper-cased user name followed by the domain, unless
    HMAC-MD5 gives the same result under two keys or for two texts. *)
Lemma C92_names_bound_lem : forall cfg P e e' level level' user user' dom dom' pw ch r b b',
  3 <= level -> 3 <= level' -> host_le cfg = true ->
  replies cfg P e level user dom pw ch r b -> replies cfg P e' level' user' dom' pw ch r b' ->
  field_data b 12 = field_data b' 12 ->
  to_uppercase P user ++ dom = to_uppercase P user' ++ dom'
  \/ collision P (NTOWFv1 P pw) (utf16le (to_uppercase P user ++ dom)) (utf16le (to_uppercase P user' ++ dom'))
  \/ key_collision P (NTOWFv2 P pw user dom) (NTOWFv2 P pw user' dom') (ch_server_challenge ch ++ e_client_challenge r).
Proof.
  intros cfg P e e' level level' user user' dom dom' pw ch r b b' L L' Hle H H' E.
  destruct (replies_workstation _ _ _ _ _ _ _ _ _ _ H) as [ws W].
  destruct (replies_workstation _ _ _ _ _ _ _ _ _ _ H') as [ws' W'].
  destruct (C27_ntlmv2_response_lem _ _ _ _ _ _ _ _ _ _ _ Hle L W H) as (t & _ & A & _).
  destruct (C27_ntlmv2_response_lem _ _ _ _ _ _ _ _ _ _ _ Hle L' W' H') as (t' & _ & A' & _).
  rewrite A, A' in E. unfold v2_lm_response in E. apply app_inv_tail in E.
  destruct (list_eq_dec N.eq_dec (NTOWFv2 P pw user dom) (NTOWFv2 P pw user' dom')) as [D|D]; [|right; right; split; assumption].
  unfold NTOWFv2 in D.
  destruct (list_eq_dec N.eq_dec (utf16le (to_uppercase P user ++ dom)) (utf16le (to_uppercase P user' ++ dom'))) as [D'|D'];
    [|right; left; split; assumption].
  left. destruct H as (tg & c & h & M & _). destruct H' as (tg' & c' & h' & M' & _).
  destruct M as (HP & _ & Hu & Hd & _). destruct M' as (_ & _ & Hu' & Hd' & _).
  apply utf16le_inj; [| |exact D']; apply string_app; auto using to_uppercase_string.
Qed.
Definition bare_concluded (level : N) (user dom pw : rstring) (ch : challenge) : Prop :=
  made cfg_debug real_prims bare_env level user dom pw [] (bare_client real_prims level user dom pw)
  /\ concludes cfg_debug real_prims (bare_client real_prims level user dom pw) (bare_history ch) ch sample_entropy
       (bare_reply level user dom pw ch) (bare_key level user dom pw ch).
Lemma bare_accepts ch : accepts (bare_history ch) ch.
Proof. exists [], [], []. split; [reflexivity|]. split; constructor. Qed.
Ltac bare_conclude := split; [split; [exact real_prims_ok|bare_made]|];
  split; [exact sealed_valid|]; split; [apply sample_entropy_ok|]; split; [apply bare_accepts|];
  split; [vm_compute; reflexivity|]; split; vm_compute; reflexivity.
Lemma bare_User level : In level [0; 5] -> bare_concluded level str_User str_Domain str_Password sealed_challenge.
Proof. cbn [In]. intros [<-|[<-|[]]]; bare_conclude. Qed.
Lemma bare_USER level : In level [0; 5] -> bare_concluded level str_USER str_Domain str_Password sealed_challenge.
Proof. cbn [In]. intros [<-|[<-|[]]]; bare_conclude. Qed.
Lemma bare_DOMAIN level : In level [0; 5] -> bare_concluded level str_User str_DOMAIN str_Password sealed_challenge.
Proof. cbn [In]. intros [<-|[<-|[]]]; bare_conclude. Qed.
Lemma bare_shifted : bare_concluded 5 (str_User ++ [68; 79]) [77; 65; 73; 78] str_Password sealed_challenge.
Proof. bare_conclude. Qed.
(** The case of the domain counts, at levels 3 to 5. *)
Lemma C92_domain_case_refuted_lem :
  ~ (forall cfg P e level user dom dom' pw target target' c c' h h' ch r b b' K K',
      made cfg P e level user dom pw target c -> made cfg P e level user dom' pw target' c' ->
      to_uppercase P dom = to_uppercase P dom' ->
      concludes cfg P c h ch r b K -> concludes cfg P c' h' ch r b' K' ->
      field_data b 12 = field_data b' 12).
Proof.
  intros H. destruct (bare_User 5) as [M C]; [cbn; tauto|]. destruct (bare_DOMAIN 5) as [M' C']; [cbn; tauto|].
  specialize (H _ _ _ _ _ _ _ _ _ _ _ _ _ _ _ _ _ _ _ _ M M' ltac:(vm_compute; reflexivity) C C').
  vm_compute in H. discriminate H.
Qed.
(** The responses do not say where the user name ends. *)
Lemma C92_names_told_apart_refuted_lem :
  ~ (forall cfg P e level user user' dom dom' pw target target' c c' h h' ch r b b' K K', 3 <= level ->
      made cfg P e level user dom pw target c -> made cfg P e level user' dom' pw target' c' ->
      concludes cfg P c h ch r b K -> concludes cfg P c' h' ch r b' K' ->
      (forall o, In o [12; 20; 52] -> field_data b o = field_data b' o) ->
      to_uppercase P user = to_uppercase P user' /\ dom = dom').
Proof.
  intros H. destruct (bare_DOMAIN 5) as [M C]; [cbn; tauto|]. destruct bare_shifted as [M' C'].
  assert (L : 3 <= 5) by lia.
  specialize (H _ _ _ _ _ _ _ _ _ _ _ _ _ _ _ _ _ _ _ _ _ L M M' C C').
  destruct H as [_ H]; [|discriminate H].
  intros o Ho. cbn [In] in Ho. destruct Ho as [<-|[<-|[<-|[]]]]; vm_compute; reflexivity.
Qed.
Example C92_ex_lem :
  (forall level, In level [0; 5] ->
    made cfg_debug real_prims bare_env level str_User str_Domain str_Password [] (bare_client real_prims level str_User str_Domain str_Password)
    /\ made cfg_debug real_prims bare_env level str_USER str_Domain str_Password [] (bare_client real_prims level str_USER str_Domain str_Password)
    /\ concludes cfg_debug real_prims (bare_client real_prims level str_User str_Domain str_Password) (bare_history sealed_challenge)
         sealed_challenge sample_entropy (bare_reply level str_User str_Domain str_Password sealed_challenge)
         (bare_key level str_User str_Domain str_Password sealed_challenge)
    /\ concludes cfg_debug real_prims (bare_client real_prims level str_USER str_Domain str_Password) (bare_history sealed_challenge)
         sealed_challenge sample_entropy (bare_reply level str_USER str_Domain str_Password sealed_challenge)
         (bare_key level str_USER str_Domain str_Password sealed_challenge))
  /\ to_uppercase real_prims str_User = to_uppercase real_prims str_USER
  /\ bare_reply 5 str_User str_Domain str_Password sealed_challenge <> bare_reply 5 str_USER str_Domain str_Password sealed_challenge
  /\ field_data (bare_reply 5 str_User str_Domain str_Password sealed_challenge) 12
     = [134; 195; 80; 151; 172; 156; 236; 16; 37; 84; 118; 74; 87; 204; 204; 25; 170; 170; 170; 170; 170; 170; 170; 170].
Proof.
  split; [|split; [vm_compute; reflexivity|split; [vm_compute; discriminate|vm_compute; reflexivity]]].
  intros level Hl. destruct (bare_User level Hl) as [A B]. destruct (bare_USER level Hl) as [A' B'].
  split; [exact A|]. split; [exact A'|]. split; [exact B|exact B'].
Qed.
