(** Facts about flags and the message builders. *)
From Coq Require Import ZifyBool ZifyNat ZifyN.
From Verif Require Import Base Nom Unicode Wire Structures Prims Messages Spec SpecBuild Lib Encode Decode RoundTrip Parse Samples FactsEncode FactsDecode.

Ltac Zify.zify_post_hook ::= Z.div_mod_to_equations.

(** ** C13 *)
Lemma testbit_pow2 i j : N.testbit (N.shiftl 1 i) j = (j =? i).
Proof.
  rewrite N.shiftl_1_l, N.pow2_bits_eqb, N.eqb_sym. reflexivity.
Qed.
Lemma set_flag_bits f i : bit_put f (set_flag f i) i true.
Proof.
  intros j. unfold set_flag. rewrite N.lor_spec, testbit_pow2. destruct (j =? i); [apply orb_true_r|apply orb_false_r].
Qed.
Lemma testbit_u32 f j : is_u32 f -> 31 < j -> N.testbit f j = false.
Proof.
  intros H Hj. destruct (N.eq_dec f 0) as [->|H0]; [apply N.bits_0|]. apply N.bits_above_log2.
  apply N.log2_lt_pow2; [lia|]. unfold is_u32 in H. apply N.lt_le_trans with (1 := H).
  change 4294967296 with (2 ^ 32). apply N.pow_le_mono_r; lia.
Qed.
Lemma u32_bits f : (forall j, 31 < j -> N.testbit f j = false) -> is_u32 f.
Proof.
  intros H. unfold is_u32. change 4294967296 with (2 ^ 32).
  destruct (N.eq_dec f 0) as [->|H0]; [reflexivity|].
  apply N.log2_lt_pow2; [lia|]. destruct (N.lt_ge_cases (N.log2 f) 32) as [L|L]; [exact L|].
  exfalso. pose proof (N.bit_log2 f H0). rewrite H in H1; [discriminate|lia].
Qed.
Lemma testbit_max j : N.testbit 4294967295 j = (j <? 32).
Proof.
  change 4294967295 with (N.ones 32). destruct (j <? 32) eqn:E.
  - apply N.ones_spec_low. lia.
  - apply N.ones_spec_high. lia.
Qed.
Lemma clear_flag_bits f i : is_u32 f -> i <= 31 -> bit_put f (clear_flag f i) i false.
Proof.
  intros Hf Hi j. unfold clear_flag, not_u32. rewrite !N.land_spec, N.lxor_spec, testbit_pow2, testbit_max.
  destruct (j <? 32) eqn:E.
  - destruct (j =? i); [apply andb_false_r|]. rewrite xorb_false_l. apply andb_true_r.
  - rewrite testbit_u32 by (auto; lia). destruct (j =? i); reflexivity.
Qed.
Lemma bit_put_u32 f f' i v : is_u32 f -> i <= 31 -> bit_put f f' i v -> is_u32 f'.
Proof.
  intros Hf Hi H. apply u32_bits. intros j Hj. rewrite H. replace (j =? i) with false by lia. now apply testbit_u32.
Qed.
(** Bit numbers up to 31. *)
Lemma C13_flag_algebra_lem : forall cfg f i, is_u32 f -> i <= 31 ->
  api_has_flag cfg f i = Val (N.testbit f i)
  /\ (exists f', api_set_flag cfg f i = Val f' /\ is_u32 f' /\ bit_put f f' i true
                 /\ api_has_flag cfg f' i = Val true)
  /\ (exists f', api_clear_flag cfg f i = Val f' /\ is_u32 f' /\ bit_put f f' i false
                 /\ api_has_flag cfg f' i = Val false).
Proof.
  intros cfg f i Hf Hi.
  assert (Hb : api_bit cfg i = Val i).
  { unfold api_bit. destruct (debug cfg); [replace (i <=? 31) with true by lia; reflexivity|].
    rewrite N.mod_small by lia. reflexivity. }
  unfold api_has_flag, api_set_flag, api_clear_flag. rewrite Hb. cbn [obind]. rewrite has_flag_testbit.
  pose proof (set_flag_bits f i) as S. pose proof (clear_flag_bits f i Hf Hi) as C.
  split; [reflexivity|]. split; eexists; (split; [reflexivity|]).
  - split; [exact (bit_put_u32 _ _ _ _ Hf Hi S)|]. split; [exact S|]. rewrite has_flag_testbit, S, N.eqb_refl. reflexivity.
  - split; [exact (bit_put_u32 _ _ _ _ Hf Hi C)|]. split; [exact C|]. rewrite has_flag_testbit, C, N.eqb_refl. reflexivity.
Qed.
Example C13_flag_algebra_ex_lem : is_u32 2181038080 /\ api_has_flag cfg_debug 2181038080 31 = Val true
  /\ api_set_flag cfg_debug 2181038080 0 = Val 2181038081
  /\ api_clear_flag cfg_debug 2181038080 31 = Val 33554432.
Proof. repeat split. Qed.
(** Larger bit numbers: a panic in debug builds, an alias in release builds. *)
Lemma C13_large_bits_lem : forall cfg f i, 31 < i ->
  if debug cfg
  then api_has_flag cfg f i = Panic PDebugAssert /\ api_set_flag cfg f i = Panic PDebugAssert
       /\ api_clear_flag cfg f i = Panic PDebugAssert
  else api_has_flag cfg f i = api_has_flag cfg f (i mod 32)
       /\ api_set_flag cfg f i = api_set_flag cfg f (i mod 32)
       /\ api_clear_flag cfg f i = api_clear_flag cfg f (i mod 32).
Proof.
  intros cfg f i Hi. unfold api_has_flag, api_set_flag, api_clear_flag, api_bit. destruct (debug cfg).
  - replace (i <=? 31) with false by lia. repeat split.
  - rewrite N.mod_mod by discriminate. repeat split.
Qed.
Example C13_large_bits_ex_lem : api_set_flag cfg_release 0 34 = Val 4 /\ api_set_flag cfg_debug 0 34 = Panic PDebugAssert.
Proof. repeat split. Qed.
(** Writing the flags of the model as in C02 and following: the word decoded is the word encoded. *)

(** ** C14 *)
(** Strict mode does not reject forbidden flag words. *)
Lemma C14_strict_flags_refuted_lem :
  ~ (forall cfg f rest, strict cfg = true -> is_u32 f -> invalid_flags f ->
     forall r v, flags_de cfg (le32 f ++ rest) <> POk r v).
Proof.
  intros H. apply (H cfg_strict 0 [] eq_refl eq_refl) with (r := []) (v := 0); [|reflexivity].
  right; right; left. split; reflexivity.
Qed.
(** Every word is accepted, in every build. *)
Lemma C14_all_flags_accepted_lem : forall cfg f rest, is_u32 f -> flags_de cfg (le32 f ++ rest) = POk rest f.
Proof. intros. now apply flags_de_ok. Qed.
Example C14_all_flags_accepted_ex_lem : strict cfg_strict = true /\ is_u32 4294967292 /\ invalid_flags 4294967292.
Proof. split; [reflexivity|]. split; [reflexivity|]. left. exists 28. split; [cbn; auto|reflexivity]. Qed.
(** All that [strict] changes: a CHALLENGE must have a zero reserved field. *)
Lemma C14_strict_effect_lem : forall cfg b,
  let lenient := mkConfig (debug cfg) false (windows cfg) (host_le cfg) in
  negotiate_de cfg b = negotiate_de lenient b
  /\ authenticate_de cfg b = authenticate_de lenient b
  /\ challenge_de cfg b =
     (if strict cfg && negb (beq_bytes (sub b 32 8) [0; 0; 0; 0; 0; 0; 0; 0])
      then PErr EError else challenge_de lenient b).
Proof.
  intros cfg b lenient. split; [|split].
  - now rewrite !negotiate_de_spec.
  - rewrite !authenticate_de_spec. reflexivity.
  - rewrite !challenge_de_spec. unfold challenge_headerb. subst lenient. cbn [strict].
    destruct (strict cfg); [|reflexivity]. cbn [negb andb orb].
    destruct (beq_bytes (sub b 32 8) [0; 0; 0; 0; 0; 0; 0; 0]) eqn:E.
    + cbn [negb]. rewrite ?andb_true_r, ?orb_true_r. reflexivity.
    + cbn [negb]. rewrite ?andb_false_r, ?orb_false_r. reflexivity.
Qed.
Example C14_strict_effect_ex_lem : exists b c, challenge_de cfg_strict b = PErr EError
  /\ challenge_de cfg_debug b = POk [] c.
Proof.
  exists (NTLMSSP ++ le32 2 ++ repeat 0 8 ++ le32 1 ++ repeat 7 8 ++ repeat 1 8 ++ repeat 0 8).
  eexists. split; vm_compute; reflexivity.
Qed.

(** ** C15 *)
Lemma put_flag_bits f i v : is_u32 f -> i <= 31 -> bit_put f (put_flag f i v) i v.
Proof. intros Hf Hi. unfold put_flag. destruct v; [apply set_flag_bits|now apply clear_flag_bits]. Qed.
Lemma put_flag_u32 f i v : is_u32 f -> i <= 31 -> is_u32 (put_flag f i v).
Proof. intros Hf Hi. eapply bit_put_u32; eauto using put_flag_bits. Qed.

Lemma last_set_app {O V} (sel : O -> Prop) (op : V -> O) v0 ops o v :
  sel (op v) -> last_set sel op v0 ops v ->
  (forall w, o = op w -> last_set sel op v0 (ops ++ [o]) w)
  /\ (~ sel o -> last_set sel op v0 (ops ++ [o]) v).
Proof.
  intros Hs H. split.
  - intros w ->. right. exists ops, []. split; [reflexivity|constructor].
  - intros Hn. destruct H as [[H ->]|(pre & post & -> & H)].
    + left. split; [|reflexivity]. apply Forall_app. split; [exact H|]. repeat constructor. exact Hn.
    + right. exists pre, (post ++ [o]). split; [now rewrite <- app_assoc|]. apply Forall_app. split; [exact H|].
      repeat constructor. exact Hn.
Qed.
(** Any sequence of setter calls on any message. *)
Lemma C15_negotiate_builder_lem : forall n0 ops, is_u32 (n_flags n0) ->
  let n := neg_build n0 ops in
  last_set sets_domain SetDomainName (n_domain n0) ops (get_domain_name n)
  /\ last_set sets_workstation SetWorkstation (n_workstation n0) ops (get_workstation n)
  /\ (Exists sets_domain ops -> N.testbit (n_flags n) 12 = is_some (get_domain_name n))
  /\ (Exists sets_workstation ops -> N.testbit (n_flags n) 13 = is_some (get_workstation n))
  /\ (Forall (fun o => ~ sets_domain o) ops -> N.testbit (n_flags n) 12 = N.testbit (n_flags n0) 12)
  /\ (Forall (fun o => ~ sets_workstation o) ops -> N.testbit (n_flags n) 13 = N.testbit (n_flags n0) 13)
  /\ (forall i, i <> 12 -> i <> 13 -> N.testbit (n_flags n) i = N.testbit (n_flags n0) i)
  /\ n_version n = n_version n0 /\ is_u32 (n_flags n).
Proof.
  intros n0 ops H0. induction ops as [|o ops IH] using rev_ind.
  { cbn. repeat match goal with |- _ /\ _ => split end; auto.
    - left. split; [constructor|reflexivity].
    - left. split; [constructor|reflexivity].
    - intros H; inversion H.
    - intros H; inversion H. }
  destruct IH as (I1 & I2 & I3 & I4 & I5 & I6 & I7 & I8 & I9).
  assert (E : neg_build n0 (ops ++ [o]) = neg_apply (neg_build n0 ops) o).
  { unfold neg_build. rewrite fold_left_app. reflexivity. }
  rewrite E. cbv zeta. set (n := neg_build n0 ops) in *. clearbody n. clear E.
  destruct (last_set_app sets_domain SetDomainName _ _ o _ I I1) as [L1 L2].
  destruct (last_set_app sets_workstation SetWorkstation _ _ o _ I I2) as [L3 L4].
  destruct o as [v|v].
  - pose proof (put_flag_bits (n_flags n) 12 (is_some v) I9 ltac:(lia)) as B.
    pose proof (put_flag_u32 (n_flags n) 12 (is_some v) I9 ltac:(lia)) as U.
    cbn [neg_apply set_domain_name get_domain_name get_workstation n_domain n_workstation n_flags n_version].
    unfold NTLMSSP_NEGOTIATE_OEM_DOMAIN_SUPPLIED.
    split; [now apply L1|]. split; [apply L4; intros []|].
    split; [intros _; now rewrite B|].
    split; [intros H; rewrite B; change (13 =? 12) with false; apply I4|].
    { apply Exists_app in H as [H|H]; [exact H|]. inversion H as [? ? H'|? ? H']; subst; [destruct H'|inversion H']. }
    split; [intros H; apply Forall_app in H as [_ H]; inversion H as [|? ? H']; subst; now destruct (H' I)|].
    split; [intros H; apply Forall_app in H as [H _]; rewrite B; change (13 =? 12) with false; now apply I6|].
    split; [intros i N1 N2; rewrite B; replace (i =? 12) with false by lia; now apply I7|].
    split; [exact I8|exact U].
  - pose proof (put_flag_bits (n_flags n) 13 (is_some v) I9 ltac:(lia)) as B.
    pose proof (put_flag_u32 (n_flags n) 13 (is_some v) I9 ltac:(lia)) as U.
    cbn [neg_apply set_workstation get_domain_name get_workstation n_domain n_workstation n_flags n_version].
    unfold NTLMSSP_NEGOTIATE_OEM_WORKSTATION_SUPPLIED.
    split; [apply L2; intros []|]. split; [now apply L3|].
    split; [intros H; rewrite B; change (12 =? 13) with false; apply I3|].
    { apply Exists_app in H as [H|H]; [exact H|]. inversion H as [? ? H'|? ? H']; subst; [destruct H'|inversion H']. }
    split; [intros _; now rewrite B|].
    split; [intros H; apply Forall_app in H as [H _]; rewrite B; change (12 =? 13) with false; now apply I5|].
    split; [intros H; apply Forall_app in H as [_ H]; inversion H as [|? ? H']; subst; now destruct (H' I)|].
    split; [intros i N1 N2; rewrite B; replace (i =? 13) with false by lia; now apply I7|].
    split; [exact I8|exact U].
Qed.
(** On a fresh message flags and values always agree. *)
Lemma exists_or_not (ops : list neg_op) (f : neg_op -> Prop) : (forall o, f o \/ ~ f o) -> Exists f ops \/ Forall (fun o => ~ f o) ops.
Proof.
  intros Hd. induction ops as [|o ops IH]; [right; constructor|]. destruct (Hd o) as [H|H]; [left; now constructor|].
  destruct IH as [IH|IH]; [left; now constructor 2|right; now constructor].
Qed.
Lemma C15_fresh_negotiate_lem : forall ops,
  let n := neg_build negotiate_default ops in
  N.testbit (n_flags n) 12 = is_some (get_domain_name n)
  /\ N.testbit (n_flags n) 13 = is_some (get_workstation n)
  /\ (forall i, i <> 12 -> i <> 13 -> N.testbit (n_flags n) i = (i =? 0))
  /\ n_version n = None.
Proof.
  intros ops n. subst n. pose proof (C15_negotiate_builder_lem negotiate_default ops eq_refl) as H. cbv zeta in H.
  destruct H as (I1 & I2 & I3 & I4 & I5 & I6 & I7 & I8 & I9).
  assert (D : forall ops o, Forall (fun o => ~ sets_domain o) ops -> last_set sets_domain SetDomainName None ops o -> o = None).
  { intros l o Hl [[_ ->]|(pre & post & -> & _)]; [reflexivity|]. apply Forall_app in Hl as [_ Hl]. inversion Hl; subst. now destruct H1. }
  assert (W : forall ops o, Forall (fun o => ~ sets_workstation o) ops -> last_set sets_workstation SetWorkstation None ops o -> o = None).
  { intros l o Hl [[_ ->]|(pre & post & -> & _)]; [reflexivity|]. apply Forall_app in Hl as [_ Hl]. inversion Hl; subst. now destruct H1. }
  split; [|split; [|split]].
  - destruct (exists_or_not ops sets_domain) as [E|E]; [intros []; cbn; auto|now apply I3|].
    rewrite I5 by exact E. now rewrite (D _ _ E I1).
  - destruct (exists_or_not ops sets_workstation) as [E|E]; [intros []; cbn; auto|now apply I4|].
    rewrite I6 by exact E. now rewrite (W _ _ E I2).
  - intros i N1 N2. rewrite I7 by assumption. cbn [negotiate_default n_flags]. unfold flags_default. apply testbit_pow2.
  - exact I8.
Qed.
Example C15_ex_lem :
  neg_build negotiate_default [SetDomainName (Some str_Domain); SetWorkstation (Some str_COMPUTER);
     SetDomainName (Some str_User); SetWorkstation None]
  = mkNegotiate 4097 (Some str_User) None None.
Proof. reflexivity. Qed.

(** ** C16 *)
Lemma insert_before_last_eol {A} (l : list A) e x : insert_before_last (l ++ [e]) x = l ++ [x; e].
Proof.
  unfold insert_before_last. rewrite app_length. cbn [length]. replace (length l + 1 - 1)%nat with (length l) by lia.
  rewrite firstn_app_exact, skipn_app_exact by reflexivity. reflexivity.
Qed.
(** The list is [with_eol l], flag 23 says whether it is empty. *)
Definition infos_are (c : challenge) (l : list av_pair) : Prop :=
  ch_target_infos c = with_eol l.
Definition same_but_infos (c c' : challenge) : Prop :=
  ch_target_name c' = ch_target_name c /\ ch_server_challenge c' = ch_server_challenge c
  /\ ch_version c' = ch_version c /\ (is_u32 (ch_flags c) -> is_u32 (ch_flags c'))
  /\ forall i, i <> 23 -> N.testbit (ch_flags c') i = N.testbit (ch_flags c) i.
Lemma same_refl c : same_but_infos c c.
Proof. repeat split; auto. Qed.
Lemma same_trans a b c : same_but_infos a b -> same_but_infos b c -> same_but_infos a c.
Proof.
  intros (A1 & A2 & A3 & A4 & A5) (B1 & B2 & B3 & B4 & B5). repeat split; try congruence; auto.
  intros i Hi. rewrite B5, A5; auto.
Qed.
Definition flag23 (c c' : challenge) (l x : list av_pair) : Prop :=
  N.testbit (ch_flags c') 23 = (is_nil l && negb (is_nil x)) || N.testbit (ch_flags c) 23.
Lemma add_info_spec c l a : infos_are c l ->
  let c' := add_target_info c a in
  infos_are c' (l ++ [a]) /\ same_but_infos c c' /\ flag23 c c' l [a].
Proof.
  intros H c'. subst c'. unfold add_target_info. unfold infos_are in H. rewrite !H. destruct l as [|x l].
  - cbn [with_eol is_nil]. split; [reflexivity|]. split.
    + split; [reflexivity|]. split; [reflexivity|]. split; [reflexivity|]. cbn [ch_flags]. split.
      * intros Hf. eapply bit_put_u32; [exact Hf| |apply set_flag_bits]. unfold NTLMSSP_NEGOTIATE_TARGET_INFO. lia.
      * intros i Hi. rewrite (set_flag_bits _ _ i). unfold NTLMSSP_NEGOTIATE_TARGET_INFO. now replace (i =? 23) with false by lia.
    + unfold flag23. cbn [ch_flags is_nil negb andb orb]. now rewrite (set_flag_bits _ _ 23).
  - cbn [with_eol]. replace (is_nil _) with false by reflexivity. split.
    + unfold infos_are. cbn [ch_target_infos]. rewrite insert_before_last_eol.
      cbn [app with_eol]. now rewrite <- app_assoc.
    + split; [repeat split; auto|reflexivity].
Qed.
Lemma adds_spec {A} (f : challenge -> A -> challenge) (k : A -> av_pair) c l (o : option A) :
  (forall c x, f c x = add_target_info c (k x)) -> infos_are c l ->
  let c' := match o with Some x => f c x | None => c end in
  infos_are c' (l ++ opt_list (opt_map k o)) /\ same_but_infos c c' /\ flag23 c c' l (opt_list (opt_map k o)).
Proof.
  intros Hf H. destruct o as [x|]; cbn [opt_map opt_list].
  - rewrite Hf. now apply add_info_spec.
  - rewrite app_nil_r. split; [exact H|]. split; [apply same_refl|]. unfold flag23. now rewrite andb_false_r.
Qed.
Lemma flag23_trans c c1 c2 l x y : flag23 c c1 l x -> flag23 c1 c2 (l ++ x) y -> flag23 c c2 l (x ++ y).
Proof.
  unfold flag23. intros -> ->. rewrite !is_nil_app. destruct (is_nil l), (is_nil x), (is_nil y), (N.testbit (ch_flags c) 23); reflexivity.
Qed.
Lemma fill_spec P e c l : infos_are c l ->
  let c' := fill_from_env P e c in
  infos_are c' (l ++ env_infos P e) /\ same_but_infos c c' /\ flag23 c c' l (env_infos P e).
Proof.
  intros H. unfold fill_from_env.
  set (c1 := match env_COMPUTERNAME e with Some s => target_infos_add_computername c (to_uppercase P s) | None => c end).
  destruct (adds_spec (fun c s => target_infos_add_computername c (to_uppercase P s))
    (fun s => AvNbComputerName (to_uppercase P s)) c l (env_COMPUTERNAME e) (fun _ _ => eq_refl) H) as (A1 & B1 & C1).
  fold c1 in A1, B1, C1. clearbody c1.
  set (c2 := match env_COMPUTERDNSNAME e with Some s => target_infos_add_dnscomputername c1 s | None => c1 end).
  destruct (adds_spec target_infos_add_dnscomputername AvDnsComputerName c1 _ (env_COMPUTERDNSNAME e) (fun _ _ => eq_refl) A1) as (A2 & B2 & C2).
  fold c2 in A2, B2, C2. clearbody c2.
  set (c3 := match env_USERDOMAIN e with Some s => target_infos_add_domainname c2 (to_uppercase P s) | None => c2 end).
  destruct (adds_spec (fun c s => target_infos_add_domainname c (to_uppercase P s))
    (fun s => AvNbDomainName (to_uppercase P s)) c2 _ (env_USERDOMAIN e) (fun _ _ => eq_refl) A2) as (A3 & B3 & C3).
  fold c3 in A3, B3, C3. clearbody c3.
  set (c4 := match env_USERDNSDOMAIN e with Some s => target_infos_add_dnsdomainname c3 s | None => c3 end).
  destruct (adds_spec target_infos_add_dnsdomainname AvDnsDomainName c3 _ (env_USERDNSDOMAIN e) (fun _ _ => eq_refl) A3) as (A4 & B4 & C4).
  fold c4 in A4, B4, C4. clearbody c4. cbv zeta. unfold env_infos.
  split; [|split].
  - now rewrite <- !app_assoc in A4.
  - eauto using same_trans.
  - eapply flag23_trans; [exact C1|]. eapply flag23_trans; [exact C2|]. eapply flag23_trans; [exact C3|exact C4].
Qed.
Lemma set_target_spec c v : is_u32 (ch_flags c) -> let c' := set_target_name c v in
  ch_target_name c' = v /\ ch_target_infos c' = ch_target_infos c /\ ch_server_challenge c' = ch_server_challenge c
  /\ ch_version c' = ch_version c /\ bit_put (ch_flags c) (ch_flags c') 2 (is_some v) /\ is_u32 (ch_flags c').
Proof.
  intros H. repeat (split; [reflexivity|]). split.
  - apply put_flag_bits; [exact H|lia].
  - apply put_flag_u32; [exact H|unfold NTLMSSP_REQUEST_TARGET; lia].
Qed.
Definition built_from (P : prims) (ops : list chal_op) (c : challenge) : Prop :=
  ch_target_infos c = with_eol (all_added P ops)
  /\ last_set sets_target SetTargetName None ops (ch_target_name c)
  /\ N.testbit (ch_flags c) 23 = negb (is_nil (all_added P ops))
  /\ N.testbit (ch_flags c) 2 = is_some (ch_target_name c)
  /\ (forall i, i <> 2 -> i <> 23 -> N.testbit (ch_flags c) i = (i =? 0))
  /\ ch_server_challenge c = [0; 0; 0; 0; 0; 0; 0; 0] /\ ch_version c = None.
Lemma build_step P ops o c : is_u32 (ch_flags c) -> built_from P ops c ->
  built_from P (ops ++ [o]) (chal_apply P c o) /\ is_u32 (ch_flags (chal_apply P c o)).
Proof.
  intros Hu (I1 & I2 & I3 & I4 & I5 & I6 & I7).
  assert (Hadd : all_added P (ops ++ [o]) = all_added P ops ++ added P o).
  { unfold all_added. rewrite flat_map_app. cbn [flat_map]. now rewrite app_nil_r. }
  destruct (last_set_app sets_target SetTargetName _ _ o _ I I2) as [L1 L2].
  assert (G : forall c', (~ sets_target o) -> infos_are c' (all_added P ops ++ added P o) ->
     same_but_infos c c' -> flag23 c c' (all_added P ops) (added P o) ->
     built_from P (ops ++ [o]) c' /\ is_u32 (ch_flags c')).
  { intros c' Hn J1 (J2 & J3 & J4 & J5 & J6) J7. split; [|auto]. unfold built_from. rewrite Hadd, J2, J3, J4.
    split; [exact J1|]. split; [auto|]. split.
    { rewrite J7, I3, is_nil_app. destruct (is_nil (all_added P ops)), (is_nil (added P o)); reflexivity. }
    split; [rewrite J6 by discriminate; exact I4|]. split; [|auto].
    intros i N1 N2. rewrite J6 by exact N2. now apply I5. }
  assert (G1 : forall a, added P o = [a] -> chal_apply P c o = add_target_info c a -> ~ sets_target o ->
     built_from P (ops ++ [o]) (chal_apply P c o) /\ is_u32 (ch_flags (chal_apply P c o))).
  { intros a E1 E2 Hn. destruct (add_info_spec c _ a I1) as (A & B & C). rewrite E2. rewrite E1 in G. now apply G. }
  destruct o; try (eapply G1; [reflexivity|reflexivity|intros []]).
  2:{ destruct (fill_spec P e c _ I1) as (A & B & C). apply G; auto. }
  cbn [chal_apply]. destruct (set_target_spec c v Hu) as (T1 & T2 & T3 & T4 & T5 & T6).
  split; [|exact T6]. unfold built_from. rewrite Hadd, T1, T2, T3, T4. cbn [added]. rewrite app_nil_r.
  split; [exact I1|]. split; [now apply L1|]. split; [rewrite T5; exact I3|]. split; [now rewrite T5|].
  split; [|auto]. intros i N1 N2. rewrite T5. replace (i =? 2) with false by lia. now apply I5.
Qed.
Lemma build_all P ops : built_from P ops (chal_build P challenge_default ops)
  /\ is_u32 (ch_flags (chal_build P challenge_default ops)).
Proof.
  induction ops as [|o ops IH] using rev_ind.
  - split; [|reflexivity]. split; [reflexivity|]. split; [left; split; [constructor|reflexivity]|].
    split; [reflexivity|]. split; [reflexivity|]. split; [|split; reflexivity].
    intros i N1 N2. apply testbit_pow2.
  - unfold chal_build in *. rewrite fold_left_app. cbn [fold_left]. now apply build_step.
Qed.
Lemma C16_challenge_builder_lem : forall P ops,
  let c := chal_build P challenge_default ops in
  get_target_infos c = with_eol (all_added P ops)
  /\ last_set sets_target SetTargetName None ops (get_target_name c)
  /\ N.testbit (ch_flags c) 23 = negb (is_nil (get_target_infos c))
  /\ N.testbit (ch_flags c) 2 = is_some (get_target_name c)
  /\ (forall i, i <> 2 -> i <> 23 -> N.testbit (ch_flags c) i = (i =? 0))
  /\ ch_server_challenge c = [0; 0; 0; 0; 0; 0; 0; 0] /\ ch_version c = None.
Proof.
  intros P ops c. subst c. destruct (build_all P ops) as [(I1 & I2 & I3 & I4 & I5 & I6 & I7) _].
  repeat (split; [assumption|]). split; [|auto].
  rewrite I3. unfold get_target_infos. rewrite I1. destruct (all_added P ops); reflexivity.
Qed.
(** No call adds an EOL of its own, so there is exactly one, at the end. *)
Lemma env_no_eol P e : ~ In AvEOL (env_infos P e).
Proof.
  unfold env_infos. rewrite !in_app_iff.
  destruct (env_COMPUTERNAME e), (env_COMPUTERDNSNAME e), (env_USERDOMAIN e), (env_USERDNSDOMAIN e); cbn [opt_map opt_list In];
  intuition discriminate.
Qed.
Lemma C16_single_eol_lem : forall P ops, ~ In AvEOL (all_added P ops).
Proof.
  intros P ops H. apply in_flat_map in H as (o & _ & H).
  destruct o; cbn [added In] in H; try (intuition discriminate). now apply env_no_eol in H.
Qed.
Definition sample_env : environment := mkEnv (Some [112; 99]) None (Some [100; 223]) (Some str_Domain) None.
Definition sample_ops : list chal_op :=
  [SetTargetName (Some str_Server); AddFlags (mkAvFlags false true false); AddDomainName str_Domain;
   AddTimestamp (mkFileTime 1 2); SetTargetName (Some str_COMPUTER)].
Example C16_ex_lem : forall P,
  chal_build P challenge_default sample_ops
  = mkChallenge (Some str_COMPUTER) 8388613 (repeat 0 8)
      [AvFlags (mkAvFlags false true false); AvNbDomainName str_Domain; AvTimestamp (mkFileTime 1 2); AvEOL] None.
Proof. reflexivity. Qed.

(** ** C17 *)
(** Built from representable values that fit, a CHALLENGE decodes to itself. *)
Lemma C17_built_challenge_decodes_lem : forall cfg P ops tail, host_le cfg = true ->
  let c := chal_build P challenge_default ops in
  Forall valid_av_pair (all_added P ops) -> Forall (carried_av cfg) (all_added P ops) ->
  (forall s, In (SetTargetName (Some s)) ops -> plain_string s /\ s <> []) ->
  len (utf16le (match get_target_name c with Some s => s | None => [] end)) <= 65535 ->
  len (av_list_bytes cfg (get_target_infos c)) <= 65535 ->
  exists b, serialize cfg (challenge_ser cfg c) = Val b /\ challenge_de cfg (b ++ tail) = POk [] c.
Proof.
  intros cfg P ops tail Hle c Hv Hc Ht Hl1 Hl2. subst c. set (c := chal_build P challenge_default ops) in *.
  destruct (build_all P ops) as [(I1 & I2 & I3 & I4 & I5 & I6 & I7) I8]. fold c in I1, I2, I3, I4, I5, I6, I7, I8.
  assert (T : carried_string (ch_target_name c)).
  { destruct (ch_target_name c) as [s|] eqn:E; [|exact I]. destruct I2 as [[_ I2]|(pre & post & -> & _)]; [discriminate|].
    apply Ht. apply in_or_app. right. now left. }
  assert (V : Forall valid_av_pair (ch_target_infos c)).
  { rewrite I1. destruct (all_added P ops); [constructor|]. apply Forall_app. split; [exact Hv|]. repeat constructor. }
  assert (C : Forall (carried_av cfg) (ch_target_infos c)).
  { rewrite I1. destruct (all_added P ops); [constructor|]. apply Forall_app. split; [exact Hc|]. repeat constructor. }
  assert (Q : eol_terminated (ch_target_infos c)).
  { rewrite I1. destruct (all_added P ops) as [|x l]; [now left|right]. now exists (x :: l). }
  assert (VC : valid_challenge c).
  { split; [destruct (ch_target_name c); [apply T|exact I]|]. split; [exact I8|]. split; [rewrite I6; closed_valid|].
    split; [exact V|rewrite I7; exact I]. }
  assert (F : fits (challenge_fields cfg c)).
  { apply fits_intro. intros f [<-|[<-|[]]].
    - unfold get_target_name in Hl1. destruct (ch_target_name c); [exact Hl1|cbn; lia].
    - unfold get_target_infos in Hl2. destruct (ch_target_infos c); [cbn; lia|exact Hl2]. }
  assert (CC : carried_challenge cfg c).
  { split; [exact F|]. split; [exact T|]. split; [exact C|]. split; [exact Q|]. rewrite I7. cbn [revision_ok]. now apply I5. }
  exists (challenge_bytes cfg c). split.
  - rewrite challenge_serialize by exact VC. apply fitsb_fits in F. now rewrite F.
  - now apply challenge_round_trip.
Qed.
Example C17_ex_lem : forall P,
  Forall valid_av_pair (all_added P sample_ops) /\ Forall (carried_av cfg_debug) (all_added P sample_ops)
  /\ (forall s, In (SetTargetName (Some s)) sample_ops -> plain_string s /\ s <> []).
Proof.
  intros P. split; [closed_valid|]. split; [closed_valid|].
  intros s H. repeat destruct H as [H|H]; try discriminate H; try (injection H as <-); try destruct H; closed_valid.
Qed.

(** ** C18 *)
Lemma C18_key_setter_lem : forall a ks k, is_u32 (a_flags a) ->
  let a' := fold_left set_encrypted_random_session_key (ks ++ [k]) a in
  get_encrypted_random_session_key a' = k
  /\ N.testbit (a_flags a') 30 = is_some k
  /\ same_but_key a a' /\ is_u32 (a_flags a').
Proof.
  assert (S : forall a k, is_u32 (a_flags a) -> let a' := set_encrypted_random_session_key a k in
    get_encrypted_random_session_key a' = k /\ N.testbit (a_flags a') 30 = is_some k
    /\ same_but_key a a' /\ is_u32 (a_flags a')).
  { intros a k H. pose proof (put_flag_bits (a_flags a) 30 (is_some k) H ltac:(lia)) as B.
    split; [reflexivity|]. split; [cbn; now rewrite B|]. split.
    - repeat (split; [reflexivity|]). intros i Hi. cbn. unfold NTLMSSP_NEGOTIATE_KEY_EXCH. rewrite B. now replace (i =? 30) with false by lia.
    - apply put_flag_u32; [exact H|unfold NTLMSSP_NEGOTIATE_KEY_EXCH; lia]. }
  assert (T : forall a b c, same_but_key a b -> same_but_key b c -> same_but_key a c).
  { intros a b c (A1 & A2 & A3 & A4 & A5 & A6 & A7 & A8 & A9) (B1 & B2 & B3 & B4 & B5 & B6 & B7 & B8 & B9).
    repeat split; try congruence. intros i Hi. rewrite B9, A9; auto. }
  intros a ks k H a'. subst a'. rewrite fold_left_app. cbn [fold_left].
  assert (K : same_but_key a (fold_left set_encrypted_random_session_key ks a)
              /\ is_u32 (a_flags (fold_left set_encrypted_random_session_key ks a))).
  { revert a H. induction ks as [|k' ks IH]; intros a H; [split; [repeat split|exact H]|]. cbn [fold_left].
    destruct (S a k' H) as (_ & _ & S3 & S4). destruct (IH _ S4) as [J1 J2]. split; [eapply T; eauto|exact J2]. }
  destruct K as [K1 K2]. destruct (S _ k K2) as (S1 & S2 & S3 & S4).
  split; [exact S1|]. split; [exact S2|]. split; [eapply T; eauto|exact S4].
Qed.
Example C18_ex_lem :
  a_flags (fold_left set_encrypted_random_session_key [Some (repeat 1 16); None; Some (repeat 2 16)] sample_authenticate) = 1107296257
  /\ a_flags (fold_left set_encrypted_random_session_key [Some (repeat 1 16); None] sample_authenticate) = 33554433.
Proof. split; reflexivity. Qed.

(** ** C52 *)
(** [l] are the target infos of [c] without the final EOL (none if [c] has none). *)
Lemma C52_fill_from_env_lem : forall P e c l, get_target_infos c = with_eol l ->
  let c' := fill_from_env P e c in
  get_target_infos c' = with_eol (l ++ env_infos P e)
  /\ N.testbit (ch_flags c') 23 = (is_nil l && negb (is_nil (env_infos P e))) || N.testbit (ch_flags c) 23
  /\ (forall i, i <> 23 -> N.testbit (ch_flags c') i = N.testbit (ch_flags c) i)
  /\ ch_target_name c' = ch_target_name c /\ ch_server_challenge c' = ch_server_challenge c
  /\ ch_version c' = ch_version c.
Proof.
  intros P e c l H. destruct (fill_spec P e c l H) as (A & (B1 & B2 & B3 & B4 & B5) & C).
  repeat (split; [assumption|]). auto.
Qed.
(** Nothing set: nothing changes. *)
Lemma C52_empty_env_lem : forall P h c, fill_from_env P (mkEnv None None None None h) c = c.
Proof. reflexivity. Qed.
(** ASCII names are upper-cased letter by letter. *)
Lemma C52_ascii_upper_lem : forall P s, prims_ok P -> Forall (fun c => c < 128) s ->
  to_uppercase P s = map upper_ascii s.
Proof.
  intros P s HP H. unfold to_uppercase. induction H as [|c s Hc H IH]; [reflexivity|].
  cbn [flat_map map]. rewrite (ok_upper_ascii P HP c Hc), IH. reflexivity.
Qed.
Example C52_ex_lem : forall P,
  get_target_infos (fill_from_env P sample_env (mkChallenge None 1 (repeat 0 8) [AvDnsTreeName str_Domain; AvEOL] None))
  = [AvDnsTreeName str_Domain; AvNbComputerName (to_uppercase P [112; 99]); AvNbDomainName (to_uppercase P [100; 223]);
     AvDnsDomainName str_Domain; AvEOL].
Proof. reflexivity. Qed.
