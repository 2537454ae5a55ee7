(** Clients on hosts of either byte order. *)
From Coq Require Import ZifyBool ZifyNat ZifyN.
From Verif Require Import Base Nom Unicode Wire Structures Prims Messages Crypto Client Spec SpecBuild SpecCrypto SpecClient SpecHandshake SpecEndian Lib Encode Decode RoundTrip Parse Samples FactsEncode FactsDecode FactsBuild DesKey RealPrims FactsCrypto SamplesClient History Reply FactsClient FactsReply FactsTrace Inject FactsHandshake SamplesNames SamplesEndian.

Ltac Zify.zify_post_hook ::= Z.div_mod_to_equations.

(** ** C103 *)
Lemma host_hash_eq cfg P pw : ntowfv1 cfg P pw = host_hash cfg P pw.
Proof. unfold ntowfv1, md4, host_hash. now rewrite u16s_host. Qed.
Lemma host_hash2_eq cfg P pw user dom : ntowfv2 cfg P user (ntowfv1 cfg P pw) dom = host_hash2 cfg P pw user dom.
Proof. unfold ntowfv2, hmac_md5, host_hash2. rewrite host_hash_eq, u16s_host. reflexivity. Qed.

Lemma both_unit u : u < 65536 -> (le16 u = rev (le16 u) <-> u mod 257 = 0).
Proof.
  intros H. unfold le16. cbn [rev app]. split.
  - intros E. injection E as E _. lia.
  - intros E. replace (u mod 256) with (u / 256 mod 256) by lia. reflexivity.
Qed.
Lemma both_step u r : le16 u ++ r = swap_pairs (le16 u ++ r) <-> le16 u = rev (le16 u) /\ r = swap_pairs r.
Proof.
  unfold le16. cbn [app swap_pairs rev]. generalize (u mod 256), (u / 256 mod 256), (swap_pairs r). intros x y q. split.
  - intros E. injection E as E1 E2 E3. split; congruence.
  - intros [E E']. injection E as E1 E2. congruence.
Qed.
(** Which texts are the same bytes in both byte orders; plain ASCII never is. *)
Lemma C103_both_ways_lem : (forall s, is_string s -> (both_ways s <-> Forall both_ways_char s))
  /\ (forall s, Forall (fun c => 0 < c < 128) s -> both_ways s -> s = []).
Proof.
  split; [|intros s H; apply utf16be_utf16le_ascii, H].
  unfold both_ways, utf16be. induction s as [|c s IH]; intros H; [split; constructor|].
  inversion H as [|? ? Hc Hs]; subst. specialize (IH Hs). rewrite Forall_cons_iff, <- IH.
  change (utf16le (c :: s)) with (utf16le_char c ++ utf16le s). unfold utf16le_char, both_ways_char.
  unfold is_scalar, is_scalarb in Hc. destruct (c <? 65536) eqn:L.
  - rewrite <- (both_unit c) by lia. apply both_step.
  - rewrite <- (both_unit (55296 + (c - 65536) / 1024)) by lia. rewrite <- (both_unit (56320 + (c - 65536) mod 1024)) by lia.
    rewrite <- app_assoc, both_step, both_step. tauto.
Qed.

(** Sizes do not depend on the byte order. *)
Lemma av_value_len cfg cfg' a : len (av_value cfg a) = len (av_value cfg' a).
Proof. destruct a; cbn [av_value]; now rewrite ?utf16_host_len. Qed.
Lemma av_list_len cfg cfg' l : len (av_list_bytes cfg l) = len (av_list_bytes cfg' l).
Proof.
  unfold av_list_bytes. induction l as [|a l IH]; [reflexivity|]. cbn [flat_map]. rewrite !len_app, IH. f_equal.
  unfold av_bytes. rewrite !len_app, (av_value_len cfg cfg' a). reflexivity.
Qed.
Lemma any_reply_fits cfg cfg' level user dom ws ch r :
  reply_fits cfg level user dom ws ch r -> reply_fits cfg' level user dom ws ch r.
Proof.
  intros (H1 & H2 & H3 & H4). repeat (split; [assumption|]). intros L. destruct (H4 L) as (F & A & T).
  split; [|split; [now rewrite (av_list_len cfg' cfg)|exact T]].
  unfold fits, challenge_fields in *. inversion F as [|? ? F1 F2]; subst. inversion F2 as [|? ? F3 _]; subst.
  constructor; [exact F1|]. constructor; [|constructor]. unfold av_list_field in *.
  destruct (ch_target_infos ch) as [|a l]; [exact F3|]. cbn [content] in *. now rewrite (av_list_len cfg' cfg).
Qed.
Lemma same_descriptors fs fs' : map (opt_map len) fs = map (opt_map len) fs' ->
  (forall off, descriptors off fs = descriptors off fs') /\ len (contents fs) = len (contents fs').
Proof.
  revert fs'. induction fs as [|f fs IH]; intros [|f' fs'] E; try discriminate; [split; reflexivity|].
  cbn [map] in E. injection E as E1 E2. destruct (IH _ E2) as [D L].
  assert (C : len (content f) = len (content f')) by (destruct f, f'; cbn in E1 |- *; congruence).
  split.
  - intros off. cbn [descriptors]. rewrite C, D. f_equal. destruct f, f'; cbn in E1 |- *; congruence.
  - unfold contents in *. cbn [flat_map]. rewrite !len_app, C, L. reflexivity.
Qed.
Lemma same_head cfg cfg' a a' : map (opt_map len) (authenticate_fields cfg a) = map (opt_map len) (authenticate_fields cfg' a') ->
  a_flags a = a_flags a' -> a_version a = None -> a_version a' = None -> len (a_mic a) = len (a_mic a') ->
  sub (authenticate_bytes cfg a) 0 64 = sub (authenticate_bytes cfg' a') 0 64
  /\ len (authenticate_bytes cfg a) = len (authenticate_bytes cfg' a').
Proof.
  intros E F V V' M. destruct (same_descriptors _ _ E) as [D L].
  unfold authenticate_bytes. rewrite V, V', D, F, M. cbn [opt_version_bytes app]. split.
  - set (p := concat (descriptors (64 + len (@nil N) + len (a_mic a')) (authenticate_fields cfg' a'))).
    assert (Hp : length p = 48%nat).
    { assert (X : forall off fs, length (concat (descriptors off fs)) = (8 * length fs)%nat).
      { intros off fs. revert off. induction fs as [|f fs IH]; intros off; [reflexivity|]. cbn [descriptors concat length].
        rewrite app_length, IH. destruct f; cbn [descriptor le16 le32 app length]; lia. }
      unfold p. rewrite X. reflexivity. }
    assert (X : forall q, sub (NTLMSSP ++ le32 3 ++ p ++ le32 (a_flags a') ++ q) 0 64
                = NTLMSSP ++ le32 3 ++ p ++ le32 (a_flags a')).
    { intros q. unfold sub. cbn [skipn]. rewrite !app_assoc. apply firstn_app_exact.
      rewrite !app_length, Hp. reflexivity. }
    now rewrite !X.
  - rewrite !len_app, M, L. reflexivity.
Qed.

(** Every reply at levels 3 to 5, on a host of either byte order: the hashes
    are those of MS-NLMP of text in that byte order, and so are the names in
    the NTLMv2 response; everything else is as on a little-endian host. *)
Lemma C103_response_lem : forall cfg P e level user dom pw target c h ch r b K ws, 3 <= level ->
  made cfg P e level user dom pw target c -> workstation_name P e ws -> concludes cfg P c h ch r b K ->
  exists t, response_time ch r = Some t
    /\ field_data b 12 = v2_lm_response P (host_hash2 cfg P pw user dom) (ch_server_challenge ch) (e_client_challenge r)
    /\ field_data b 20 = [1; 1] ++ zeros 6 ++ filetime_bytes t ++ e_client_challenge r ++ zeros 4
                         ++ av_list_bytes cfg (ch_target_infos ch)
    /\ field_data b 28 = utf16le dom /\ field_data b 36 = utf16le user
    /\ field_data b 44 = content (opt_map utf16le ws)
    /\ let sbk := v2_session_base_key P (host_hash2 cfg P pw user dom) (ch_server_challenge ch) (field_data b 20 ++ zeros 4) in
       if key_exchange (ch_flags ch) then K = e_session_key r /\ field_data b 52 = RC4K P sbk (e_session_key r)
       else K = sbk /\ field_data b 52 = zeros 16.
Proof.
  intros cfg P e level user dom pw target c h ch r b K ws L M Hw C.
  pose proof (concludes_replies _ _ _ _ _ _ _ _ _ _ _ _ _ _ M C) as H.
  destruct (replies_v2 _ _ _ _ _ _ _ _ _ _ _ H L Hw) as (_ & _ & _ & _ & _ & t & T & _ & V & F & ->).
  pose proof (concludes_v2 _ _ _ _ _ _ _ _ _ _ _ _ _ _ _ M L T C) as EK.
  destruct (v2_by_offset _ _ _ _ _ _ _ _ _ _ V F) as (H1 & H2 & H3 & H4 & H5 & H6 & _).
  rewrite host_hash2_eq in *. exists t. split; [exact T|]. split; [exact H1|]. split.
  { apply (app_inv_tail (zeros 4)). rewrite H2. unfold v2_temp. rewrite <- !app_assoc. reflexivity. }
  split; [exact H3|]. split; [exact H4|]. split; [exact H5|]. cbv zeta. rewrite H2, H6, EK. unfold exported, encrypted, v2_kek.
  destruct (key_exchange (ch_flags ch)); split; reflexivity.
Qed.
(** Levels 0 to 2. *)
Lemma C103_old_response_lem : forall cfg P e level user dom pw target c h ch r b K ws klm, level <= 2 ->
  made cfg P e level user dom pw target c -> workstation_name P e ws -> lmowfv1 P pw = Val klm ->
  concludes cfg P c h ch r b K ->
  field_data b 20 = v1_nt_response P (ch_flags ch) (host_hash cfg P pw) (ch_server_challenge ch) (e_client_challenge r)
  /\ field_data b 12 = v1_lm_response P (ch_flags ch) (host_hash cfg P pw) klm (ch_server_challenge ch) (e_client_challenge r)
                         (negb (level =? 0))
  /\ field_data b 28 = utf16le dom /\ field_data b 36 = utf16le user
  /\ field_data b 44 = content (opt_map utf16le ws)
  /\ let kek := p_hmac_md5 P (v1_session_base_key P (host_hash cfg P pw)) (ch_server_challenge ch ++ sub (field_data b 12) 0 8) in
     if key_exchange (ch_flags ch) then K = e_session_key r /\ field_data b 52 = RC4K P kek (e_session_key r)
     else K = kek /\ field_data b 52 = zeros 16.
Proof.
  intros cfg P e level user dom pw target c h ch r b K ws klm L M Hw Hk C.
  pose proof (concludes_replies _ _ _ _ _ _ _ _ _ _ _ _ _ _ M C) as H.
  destruct (replies_v1 _ _ _ _ _ _ _ _ _ _ _ _ H L Hw Hk) as (_ & _ & _ & V & F & ->).
  pose proof (concludes_v1 _ _ _ _ _ _ _ _ _ _ _ _ _ _ _ M L Hk C) as EK.
  destruct (v1_by_offset _ _ _ _ _ _ _ _ _ _ V F) as (H1 & H2 & H3 & H4 & H5 & H6 & _).
  rewrite host_hash_eq in *. split; [exact H2|]. split; [exact H1|]. split; [exact H3|]. split; [exact H4|]. split; [exact H5|].
  cbv zeta. rewrite H1, H6, EK. unfold exported, encrypted, v1_kek. destruct (key_exchange (ch_flags ch)); split; reflexivity.
Qed.

(** Clients made with the same arguments on hosts of any byte order, after
    the same calls: the NEGOTIATE is the same; replies are sent by both or by
    none, and have the same length, header (sizes, places and flags), names
    and workstation. *)
Lemma C103_same_shape_lem : forall cfg cfg' P e level user dom pw target c c' h,
  made cfg P e level user dom pw target c -> made cfg' P e level user dom pw target c' -> Forall typed_op h ->
  answer cfg P c h OpNegociate = answer cfg' P c' h OpNegociate
  /\ (forall r, is_entropy r ->
       (exists w w', answer cfg P c h (OpAuthenticate r) = OutPanic w /\ answer cfg' P c' h (OpAuthenticate r) = OutPanic w')
       \/ (exists b b', answer cfg P c h (OpAuthenticate r) = OutBytes b /\ answer cfg' P c' h (OpAuthenticate r) = OutBytes b'
           /\ len b = len b' /\ sub b 0 64 = sub b' 0 64
           /\ field_data b 28 = field_data b' 28 /\ field_data b 36 = field_data b' 36 /\ field_data b 44 = field_data b' 44)).
Proof.
  intros cfg cfg' P e level user dom pw target c c' h M M' Fh.
  assert (HP : prims_ok P) by apply M. split.
  { destruct (negotiable_dec level dom) as [N|N].
    - destruct (made_level _ _ _ _ _ _ _ _ _ M) as [L D]. destruct (made_level _ _ _ _ _ _ _ _ _ M') as [L' D'].
      pose proof (made_fresh _ _ _ _ _ _ _ _ _ M) as F. pose proof (made_fresh _ _ _ _ _ _ _ _ _ M') as F'.
      assert (N1 : negotiable (cl_level c) (cl_domain c)) by now rewrite L, D.
      assert (N2 : negotiable (cl_level c') (cl_domain c')) by now rewrite L', D'.
      unfold answer. cbn [step]. rewrite (send_neg_run cfg P c F h N1), (send_neg_run cfg' P c' F' h N2), L, L', D, D'. reflexivity.
    - destruct (made_fields _ _ _ _ _ _ _ _ _ M) as (klm & ws & K & W & ->).
      destruct (made_fields _ _ _ _ _ _ _ _ _ M') as (klm' & ws' & K' & W' & ->).
      unfold answer. cbn [step].
      set (x := mkClient _ _ _ _ _ _ ws _ _ _ _). set (x' := mkClient _ _ _ _ _ _ ws' _ _ _ _).
      destruct (run_dress cfg P x h) as (s & b & ->). destruct (run_dress cfg' P x' h) as (s' & b' & ->).
      unfold send_negociate. change (negociate_message (dress x' s' b')) with (negociate_message (dress x s b)).
      destruct (negociate_message (dress x s b)) as [m|]; cbn [obind]; [|reflexivity].
      destruct (negotiate_ser m []) as [[k buf]|]; cbn [obind]; [|reflexivity].
      destruct (slice buf 0 k); reflexivity. }
  intros r Hr.
  pose proof (made_workstation_exists _ _ _ _ _ _ _ _ _ M) as W.
  assert (AV : forall ch, accepts h ch -> valid_challenge ch) by (intros; eapply accepted_typed; eassumption).
  destruct (C24_panics_exactly_lem cfg P e level user dom pw target c h r _ M W Hr AV) as [P1 B1].
  destruct (C24_panics_exactly_lem cfg' P e level user dom pw target c' h r _ M' W Hr AV) as [P2 B2].
  destruct (answer_shape cfg P c h r) as [[b EA]|[w EA]].
  - right. destruct (proj1 B1 (ex_intro _ b EA)) as (N & ch & A & RF). apply (any_reply_fits _ cfg') in RF.
    destruct (proj2 B2 (conj N (ex_intro _ ch (conj A RF)))) as [b' EB]. exists b, b'.
    assert (H : replies cfg P e level user dom pw ch r b).
    { exists target, c, h. split; [exact M|]. split; [now apply AV|]. split; [exact Hr|]. split; [exact A|exact EA]. }
    assert (H' : replies cfg' P e level user dom pw ch r b').
    { exists target, c', h. split; [exact M'|]. split; [now apply AV|]. split; [exact Hr|]. split; [exact A|exact EB]. }
    split; [exact EA|]. split; [exact EB|]. destruct Hr as [Hcc Hsk].
    destruct (N.le_gt_cases level 2) as [L|L].
    + destruct (replies_lm _ _ _ _ _ _ _ _ _ _ H) as [klm Hk].
      destruct (replies_v1 _ _ _ _ _ _ _ _ _ _ _ _ H L W Hk) as (_ & _ & _ & V & F & ->).
      destruct (replies_v1 _ _ _ _ _ _ _ _ _ _ _ _ H' L W Hk) as (_ & _ & _ & V' & F' & ->).
      destruct (v1_by_offset _ _ _ _ _ _ _ _ _ _ V F) as (_ & _ & H3 & H4 & H5 & _).
      destruct (v1_by_offset _ _ _ _ _ _ _ _ _ _ V' F') as (_ & _ & H3' & H4' & H5' & _).
      rewrite H3, H4, H5, H3', H4', H5'. clear H3 H4 H5 H3' H4' H5'.
      match goal with |- context [authenticate_bytes cfg ?a] => set (m := a) in * end.
      match goal with |- context [authenticate_bytes cfg' ?a] => set (m' := a) in * end.
      assert (X : sub (authenticate_bytes cfg m) 0 64 = sub (authenticate_bytes cfg' m') 0 64
                  /\ len (authenticate_bytes cfg m) = len (authenticate_bytes cfg' m')); [|destruct X; auto].
      apply same_head; try reflexivity.
      destruct V as (V1 & V2 & _ & _ & _ & V3 & _). destruct V' as (V1' & V2' & _ & _ & _ & V3' & _).
      unfold authenticate_fields, m, m', v1_message in *.
      cbn [a_lm a_nt a_domain a_user a_workstation a_session_key opt_map lm_bytes nt_bytes valid_opt valid_lm valid_nt map] in *.
      rewrite (len_buffer 24 _ V1), (len_buffer 24 _ V1'), (len_buffer 24 _ V2), (len_buffer 24 _ V2'), (len_buffer 16 _ V3), (len_buffer 16 _ V3').
      reflexivity.
    + assert (L3 : 3 <= level) by lia.
      destruct (replies_v2 _ _ _ _ _ _ _ _ _ _ _ H L3 W) as (_ & _ & _ & _ & _ & t & T & _ & V & F & ->).
      destruct (replies_v2 _ _ _ _ _ _ _ _ _ _ _ H' L3 W) as (_ & _ & _ & _ & _ & t' & T' & _ & V' & F' & ->).
      rewrite T in T'. apply some_inj in T'. subst t'.
      destruct (v2_by_offset _ _ _ _ _ _ _ _ _ _ V F) as (_ & _ & H3 & H4 & H5 & _).
      destruct (v2_by_offset _ _ _ _ _ _ _ _ _ _ V' F') as (_ & _ & H3' & H4' & H5' & _).
      rewrite H3, H4, H5, H3', H4', H5'. clear H3 H4 H5 H3' H4' H5'.
      match goal with |- context [authenticate_bytes cfg ?a] => set (m := a) in * end.
      match goal with |- context [authenticate_bytes cfg' ?a] => set (m' := a) in * end.
      assert (X : sub (authenticate_bytes cfg m) 0 64 = sub (authenticate_bytes cfg' m') 0 64
                  /\ len (authenticate_bytes cfg m) = len (authenticate_bytes cfg' m')); [|destruct X; auto].
      apply same_head; try reflexivity.
      2: { destruct V as (_ & _ & _ & _ & _ & _ & _ & _ & V8 & _). destruct V' as (_ & _ & _ & _ & _ & _ & _ & _ & V8' & _).
           now rewrite (len_buffer 16 _ V8), (len_buffer 16 _ V8'). }
      destruct V as (V1 & V2 & _ & _ & _ & V3 & _). destruct V' as (V1' & V2' & _ & _ & _ & V3' & _).
      unfold authenticate_fields, m, m', v2_message, v2_draft, with_flags, with_workstation, with_mic in *.
      cbn [a_lm a_nt a_domain a_user a_workstation a_session_key opt_map lm_bytes nt_bytes valid_opt valid_lm map] in *.
      destruct V1 as [V1 _]. destruct V1' as [V1' _].
      rewrite !len_app, (len_buffer 16 _ V1), (len_buffer 16 _ V1'), (len_buffer 16 _ V3), (len_buffer 16 _ V3').
      rewrite !ntv2_bytes_len by exact Hcc. rewrite (av_list_len cfg cfg'). reflexivity.
  - left. exists w. assert (X : ~ exists b', answer cfg' P c' h (OpAuthenticate r) = OutBytes b').
    { intros B. apply B2 in B. destruct B as (N & ch & A & RF). apply (any_reply_fits _ cfg) in RF.
      assert (Y : exists b, answer cfg P c h (OpAuthenticate r) = OutBytes b) by (apply B1; eauto).
      destruct Y as [b EB]. congruence. }
    destruct (answer_shape cfg' P c' h r) as [B|[w' EB]]; [contradiction|]. eauto.
Qed.

(** A server that knows the account, as servers do, by the hashes of MS-NLMP
    (of little-endian text): if a client of a big-endian host sends the LM
    response that the server expects at levels 3 to 5, then either the
    password and the names are the same in both byte orders, or two texts have
    one MD4, or HMAC-MD5 gives one result for two keys or texts. *)
Lemma C103_not_expected_lem : forall cfg P e level user dom pw ch r b, host_le cfg = false -> 3 <= level ->
  replies cfg P e level user dom pw ch r b ->
  field_data b 12 = v2_lm_response P (NTOWFv2 P pw user dom) (ch_server_challenge ch) (e_client_challenge r) ->
  (both_ways pw /\ both_ways (to_uppercase P user ++ dom))
  \/ md4_collision P (utf16le pw) (utf16be pw)
  \/ mac_collision P (NTOWFv1 P pw) (utf16le (to_uppercase P user ++ dom)) (host_hash cfg P pw) (utf16be (to_uppercase P user ++ dom))
  \/ mac_collision P (NTOWFv2 P pw user dom) (ch_server_challenge ch ++ e_client_challenge r)
       (host_hash2 cfg P pw user dom) (ch_server_challenge ch ++ e_client_challenge r).
Proof.
  intros cfg P e level user dom pw ch r b B L H E.
  destruct (replies_workstation _ _ _ _ _ _ _ _ _ _ H) as [ws W].
  destruct (replies_v2 _ _ _ _ _ _ _ _ _ _ _ H L W) as (_ & _ & _ & _ & _ & t & _ & _ & V & F & ->).
  destruct (v2_by_offset _ _ _ _ _ _ _ _ _ _ V F) as (H1 & _). rewrite H1, host_hash2_eq in E. clear H1.
  unfold v2_lm_response in E. apply app_inv_tail in E. unfold mac_collision.
  destruct (list_eq_dec N.eq_dec (NTOWFv2 P pw user dom) (host_hash2 cfg P pw user dom)) as [D|D].
  2: { right; right; right. split; [intros [X _]; exact (D X)|now symmetry]. }
  unfold NTOWFv2, host_hash2, NTOWFv1, host_hash, utf16_host in *. rewrite B in *.
  destruct (list_eq_dec N.eq_dec (p_md4 P (utf16le pw)) (p_md4 P (utf16be pw))) as [D1|D1].
  2: { right; right; left. split; [intros [X _]; exact (D1 X)|exact D]. }
  destruct (list_eq_dec N.eq_dec (utf16le pw) (utf16be pw)) as [D2|D2].
  2: { right; left. split; assumption. }
  destruct (list_eq_dec N.eq_dec (utf16le (to_uppercase P user ++ dom)) (utf16be (to_uppercase P user ++ dom))) as [D3|D3].
  2: { right; right; left. split; [intros [_ X]; exact (D3 X)|exact D]. }
  left. split; assumption.
Qed.
(** The NT response at levels 0 to 2. *)
Lemma C103_not_expected_old_lem : forall cfg P e level user dom pw ch r b, host_le cfg = false -> level <= 2 ->
  replies cfg P e level user dom pw ch r b ->
  field_data b 20 = v1_nt_response P (ch_flags ch) (NTOWFv1 P pw) (ch_server_challenge ch) (e_client_challenge r) ->
  both_ways pw \/ md4_collision P (utf16le pw) (utf16be pw) \/ exists d, desl_collision P (NTOWFv1 P pw) (host_hash cfg P pw) d.
Proof.
  intros cfg P e level user dom pw ch r b B L H E.
  destruct (replies_workstation _ _ _ _ _ _ _ _ _ _ H) as [ws W].
  destruct (replies_lm _ _ _ _ _ _ _ _ _ _ H) as [klm Hk].
  destruct (replies_v1 _ _ _ _ _ _ _ _ _ _ _ _ H L W Hk) as (_ & _ & _ & V & F & ->).
  destruct (v1_by_offset _ _ _ _ _ _ _ _ _ _ V F) as (_ & H2 & _). rewrite H2, host_hash_eq in E. clear H2.
  destruct (list_eq_dec N.eq_dec (NTOWFv1 P pw) (host_hash cfg P pw)) as [D|D].
  - unfold NTOWFv1, host_hash, utf16_host in D. rewrite B in D.
    destruct (list_eq_dec N.eq_dec (utf16le pw) (utf16be pw)) as [D2|D2]; [now left|right; left; now split].
  - right; right. unfold v1_nt_response in E.
    destruct (ESS (ch_flags ch)); eexists; (split; [exact D|symmetry; exact E]).
Qed.
(** Text that is the same both ways is hashed as everywhere else. *)
Lemma C103_expected_lem : forall cfg P pw user dom,
  (both_ways pw -> host_hash cfg P pw = NTOWFv1 P pw)
  /\ (both_ways pw -> both_ways (to_uppercase P user ++ dom) -> host_hash2 cfg P pw user dom = NTOWFv2 P pw user dom).
Proof.
  intros cfg P pw user dom. unfold both_ways. split.
  - intros E. unfold host_hash, NTOWFv1, utf16_host. rewrite <- E. now destruct (host_le cfg).
  - intros E E'. unfold host_hash2, NTOWFv2, host_hash, NTOWFv1, utf16_host. rewrite <- E, <- E'. now destruct (host_le cfg).
Qed.

Lemma far_accepts ch : accepts (bare_history ch) ch.
Proof. exists [], [], []. split; [reflexivity|]. split; constructor. Qed.
Ltac far_conclude := split; [split; [exact real_prims_ok|bare_made]|];
  split; [exact sealed_valid|]; split; [apply sample_entropy_ok|]; split; [apply far_accepts|];
  split; [vm_compute; reflexivity|]; split; vm_compute; reflexivity.
(** User "User", domain "Domain", password "Password": on a big-endian host the
    responses are not the ones that a server expects, in messages with the same
    header as elsewhere.  With names and password of U+4E4E and U+FDFD they
    are. *)
Example C103_ex_lem :
  far_concluded 5 str_User str_Domain str_Password sealed_challenge
  /\ far_concluded 1 str_User str_Domain str_Password sealed_challenge
  /\ far_concluded 5 str_palindromes str_palindromes str_palindromes sealed_challenge
  /\ workstation_name real_prims bare_env None
  /\ (let b := far_reply 5 str_User str_Domain str_Password sealed_challenge in
      field_data b 12 <> v2_lm_response real_prims (NTOWFv2 real_prims str_Password str_User str_Domain)
        (ch_server_challenge sealed_challenge) (e_client_challenge sample_entropy)
      /\ sub b 0 64 = sub (bare_reply 5 str_User str_Domain str_Password sealed_challenge) 0 64)
  /\ field_data (far_reply 1 str_User str_Domain str_Password sealed_challenge) 20
     <> v1_nt_response real_prims (ch_flags sealed_challenge) (NTOWFv1 real_prims str_Password)
          (ch_server_challenge sealed_challenge) (e_client_challenge sample_entropy)
  /\ field_data (far_reply 5 str_palindromes str_palindromes str_palindromes sealed_challenge) 12
     = v2_lm_response real_prims (NTOWFv2 real_prims str_palindromes str_palindromes str_palindromes)
         (ch_server_challenge sealed_challenge) (e_client_challenge sample_entropy)
  /\ Forall both_ways_char str_palindromes.
Proof.
  split; [far_conclude|]. split; [far_conclude|]. split; [far_conclude|].
  split; [apply (made_workstation_exists cfg_big_endian real_prims bare_env 5 str_User str_Domain str_Password [] (far_client 5 str_User str_Domain str_Password)); split; [exact real_prims_ok|bare_made]|].
  split; [split; [|vm_compute; reflexivity]; intros X; revert X; vm_compute; discriminate|].
  split; [intros X; revert X; vm_compute; discriminate|].
  split; [vm_compute; reflexivity|]. repeat constructor.
Qed.
(** The hash of the names of an account depends on the byte order too. *)
Lemma C50_account_hash_refuted_lem :
  ~ (forall user k dom, is_string user -> is_string dom -> is_buffer 16 k ->
     ntowfv2 cfg_release real_prims user k dom = ntowfv2 cfg_big_endian real_prims user k dom).
Proof.
  intros H. specialize (H str_User (zeros 16) str_Domain). revert H.
  assert (A : is_string str_User) by closed_valid. assert (B : is_string str_Domain) by closed_valid.
  assert (C : is_buffer 16 (zeros 16)) by apply (zeros_buffer 16). intros H. specialize (H A B C). revert H. vm_compute. discriminate.
Qed.
