(** Facts about a client that announces its version. *)
From Coq Require Import ZifyBool ZifyNat ZifyN.
From Verif Require Import Base Nom Unicode Wire Structures Prims Messages Crypto Client Spec SpecCrypto SpecClient SpecBuild SpecHandshake SpecVersioned Lib Encode Decode RoundTrip Parse Samples FactsEncode FactsDecode FactsBuild DesKey RealPrims FactsCrypto SamplesClient History Reply FactsClient FactsReply FactsTrace FactsHandshake.

Ltac Zify.zify_post_hook ::= Z.div_mod_to_equations.

(** ** The two clients' messages *)
Definition nv (n : negotiate) (v : version) : negotiate :=
  mkNegotiate (set_flag (n_flags n) 25) (n_domain n) (n_workstation n) (Some v).
Definition av (a : authenticate) (v : version) : authenticate :=
  with_version (with_flags a (set_flag (a_flags a) 25)) (Some v).

Lemma versioned_dress c v s b : versioned (dress c s b) v = dress (versioned c v) s b.
Proof. reflexivity. Qed.
Lemma negociate_message_versioned c v : cl_level c <= 5 ->
  negociate_message (versioned c v) = Val (nv (neg_message (cl_level c) (cl_domain c)) v).
Proof.
  destruct c as [st user klm knt k2 dom ws target buf ver level]. cbn [cl_level cl_domain]. intros H.
  unfold negociate_message, neg_message, versioned. cbn [cl_level cl_version cl_domain].
  level_cases level L; subst level; destruct dom; reflexivity.
Qed.
Lemma set_flag_u32 f i : is_u32 f -> i <= 31 -> is_u32 (set_flag f i).
Proof. intros H Hi. exact (bit_put_u32 _ _ i _ H Hi (set_flag_bits f i)). Qed.
Lemma nv_valid n v : valid_negotiate n -> valid_version v -> valid_negotiate (nv n v).
Proof.
  intros (H1 & H2 & H3 & H4) Hv. split; [|split; [exact H2|split; [exact H3|exact Hv]]].
  apply set_flag_u32; [exact H1|lia].
Qed.
Lemma send_negociate_versioned c v : cl_level c <= 5 -> is_string (cl_domain c) -> valid_version v ->
  let m := neg_message (cl_level c) (cl_domain c) in
  send_negociate (versioned c v) = if fitsb (negotiate_fields m)
    then Val (negotiate_bytes (nv m v), dress (versioned c v) (StNegotiateSent (nv m v)) (negotiate_bytes (nv m v)))
    else Panic PExpect.
Proof.
  intros H1 H3 Hv m. unfold send_negociate. rewrite negociate_message_versioned by assumption. cbn [obind]. fold m.
  rewrite negotiate_ser_spec by (apply nv_valid; [now apply neg_message_valid|exact Hv]).
  change (negotiate_fields (nv m v)) with (negotiate_fields m).
  destruct (fitsb _); cbn [obind]; [|reflexivity]. cbn [app].
  unfold slice. replace (len (negotiate_bytes (nv m v)) <? 0) with false by lia. rewrite N.ltb_irrefl. cbn [orb obind].
  rewrite N.sub_0_r, skipn_O, len_nat, firstn_all. reflexivity.
Qed.

Lemma set_set_flag f i j : set_flag (set_flag f i) j = set_flag (set_flag f j) i.
Proof. unfold set_flag. rewrite <- !N.lor_assoc. f_equal. apply N.lor_comm. Qed.
Lemma clear_set_flag f i : i <= 31 -> i <> 25 -> clear_flag (set_flag f 25) i = set_flag (clear_flag f i) 25.
Proof.
  intros H N. unfold set_flag, clear_flag. rewrite N.land_lor_distr_l. f_equal.
  assert (E : exists k : nat, (k < 32)%nat /\ i = N.of_nat k) by (exists (N.to_nat i); lia). destruct E as (k & Hk & ->).
  do 32 (destruct k as [|k]; [first [vm_compute; reflexivity|now destruct N]|]). lia.
Qed.
Lemma finish_versioned c v a : cl_version c = None ->
  finish_authenticate (versioned c v) a = av (finish_authenticate c a) v.
Proof.
  destruct c as [st user klm knt k2 dom ws target buf ver level]. cbn [cl_version]. intros ->.
  unfold finish_authenticate, versioned, av, NTLMSSP_TARGET_TYPE_SERVER, NTLM_NEGOTIATE_OEM, NTLMSSP_NEGOTIATE_TARGET_INFO,
    NTLMSSP_REQUEST_TARGET, NTLMSSP_NEGOTIATE_VERSION.
  cbn [cl_workstation cl_version a_flags with_flags with_version].
  set (a0 := match ws with Some w => with_workstation a (Some w) | None => a end).
  rewrite (set_set_flag _ 2 25), (set_set_flag _ 23 25), !clear_set_flag by lia. destruct a0; reflexivity.
Qed.
Lemma build_versioned cfg P c v n ch r :
  build_authenticate cfg P (with_state (versioned c v) (StChallengeReceived n ch)) r
  = build_authenticate cfg P (with_state c (StChallengeReceived n ch)) r.
Proof. destruct c; reflexivity. Qed.
Lemma reply_versioned cfg P c v n ch r : cl_version c = None ->
  reply cfg P (versioned c v) n ch r = (let! a := reply cfg P c n ch r in Val (av a v)).
Proof.
  intros H. unfold reply. rewrite build_versioned.
  destruct (build_authenticate _ _ _ _); cbn [obind]; [|reflexivity]. now rewrite finish_versioned.
Qed.

(** The reply of the same client that had sent [n'] instead of [n]: it can differ in the MIC. *)
Lemma reply_other_negotiate cfg P e level user dom pw target c n n' ch r a : made cfg P e level user dom pw target c ->
  level <= 5 -> valid_challenge ch -> is_entropy r ->
  valid_negotiate n -> fits (negotiate_fields n) -> valid_negotiate n' -> fits (negotiate_fields n') ->
  reply cfg P c n ch r = Val a ->
  exists m, reply cfg P c n' ch r = Val (with_mic a m)
    /\ a_version a = None
    /\ (level <= 2 -> m = a_mic a /\ m = zeros 16)
    /\ (3 <= level -> exists K x, a_exported_key a = Some K
         /\ a_mic a = p_hmac_md5 P K (negotiate_bytes n ++ challenge_bytes cfg ch ++ x)
         /\ m = p_hmac_md5 P K (negotiate_bytes n' ++ challenge_bytes cfg ch ++ x)
         /\ u32_at x 60 = 1073741825 /\ sub x 64 16 = zeros 16).
Proof.
  intros M L Hch Hr Vn Fn Vn' Fn' Ea.
  assert (HP : prims_ok P) by apply M. assert (Hu : is_string user) by apply M. assert (Hd : is_string dom) by apply M.
  destruct (made_fields _ _ _ _ _ _ _ _ _ M) as (klm & ws & Hk & _ & Ec).
  assert (C2 : cl_version c = None) by (rewrite Ec; reflexivity).
  assert (C3 : is_string (cl_username c)) by (rewrite Ec; exact Hu).
  assert (C4 : is_string (cl_domain c)) by (rewrite Ec; exact Hd).
  assert (Dl : level <= 2 \/ 3 <= level <= 5) by lia. destruct Dl as [Dl|Dl].
  - assert (C1 : cl_level c <= 2) by (rewrite Ec; exact Dl).
    assert (Kl : is_buffer 16 (cl_lm_hash c)) by (rewrite Ec; eapply lmowfv1_buffer; [exact HP|exact Hk]).
    assert (Kn : is_buffer 16 (cl_nt_hash c)) by (rewrite Ec; now apply ntowfv1_buffer).
    assert (Hs : is_buffer 8 (ch_server_challenge ch)) by apply Hch.
    rewrite (reply_v1 cfg P c n ch r HP C1 C2 Kn Kl Hs Hr) in Ea. apply val_inj in Ea.
    exists (a_mic a). rewrite <- Ea. split; [|split; [reflexivity|split; [intros _; split; reflexivity|lia]]].
    rewrite (reply_v1 cfg P c n' ch r HP C1 C2 Kn Kl Hs Hr). reflexivity.
  - assert (C1 : 3 <= cl_level c <= 5) by (rewrite Ec; exact Dl).
    destruct (reply_v2 cfg P c n ch r HP C1 C2 C3 C4 Hch Hr Vn Fn) as [_ B]. destruct (B _ Ea) as (t & T & F1 & F2 & F3 & F4 & E).
    destruct (reply_v2 cfg P c n' ch r HP C1 C2 C3 C4 Hch Hr Vn' Fn') as [A _]. rewrite (A t T F1 F2 F3 F4). clear A B Ea.
    eexists. split; [|split; [rewrite E; reflexivity|split; [lia|]]].
    + rewrite E. unfold v2_message, with_mic, with_flags, with_workstation, v2_draft. cbn. reflexivity.
    + intros _. rewrite E. eexists. eexists. split; [reflexivity|]. split; [reflexivity|]. split; [reflexivity|].
      assert (Vt : valid_filetime t) by (eapply response_time_valid; [apply Hch|exact T]).
      set (d := v2_draft cfg P (cl_ntlmv2_hash c) (cl_username c) (cl_domain c) ch r t).
      assert (Vd : valid_authenticate d) by (apply v2_draft_valid; assumption).
      assert (Fd : fits (authenticate_fields cfg d)).
      { apply (v2_fields_fit cfg P (cl_ntlmv2_hash c) (cl_username c) (cl_domain c) None ch r t); auto.
        split; [|exact F2]. split; [exact F3|]. split; [exact F4|]. cbn. lia. }
      destruct (authenticate_by_offset cfg d Vd Fd) as (_ & _ & _ & _ & _ & _ & D7 & D8). split; [exact D7|exact (D8 eq_refl)].
Qed.

(** ** The two clients side by side *)
Section Versioned.
  Variables (cfg : config) (P : prims) (e : environment) (level : N) (user dom pw target : rstring) (c : client) (v : version).
  Hypothesis M : made cfg P e level user dom pw target c.
  Hypothesis Hv : valid_version v.
  Let m := neg_message level dom.
  Lemma ver_level : cl_level c = level /\ cl_domain c = dom.
  Proof. exact (made_level _ _ _ _ _ _ _ _ _ M). Qed.
  Lemma ver_none : cl_version c = None.
  Proof. apply (made_fresh _ _ _ _ _ _ _ _ _ M). Qed.
  Lemma ver_dom : is_string dom.
  Proof. apply M. Qed.

  Definition mic_relation (ch : challenge) (a : authenticate) (k : bytes) : Prop :=
    (level <= 2 -> k = a_mic a /\ k = zeros 16)
    /\ (3 <= level -> exists K x, a_exported_key a = Some K
         /\ a_mic a = p_hmac_md5 P K (negotiate_bytes m ++ challenge_bytes cfg ch ++ x)
         /\ k = p_hmac_md5 P K (negotiate_bytes (nv m v) ++ challenge_bytes cfg ch ++ x)
         /\ u32_at x 60 = 1073741825 /\ sub x 64 16 = zeros 16).
  (** States of the plain and of the versioned client. *)
  Definition ver_state (s s' : client_state) : Prop :=
    (s <> StNew -> negotiable level dom) /\
    match s, s' with
    | StNew, StNew => True
    | StNegotiateSent n, StNegotiateSent n' => n = m /\ n' = nv m v
    | StChallengeReceived n ch, StChallengeReceived n' ch' => n = m /\ n' = nv m v /\ ch' = ch /\ valid_challenge ch
    | StAuthenticateSent n ch a, StAuthenticateSent n' ch' a' =>
        n = m /\ n' = nv m v /\ ch' = ch /\ valid_challenge ch /\ exists k, a' = with_mic (av a v) k
    | _, _ => False
    end.
  (** Values returned, for a client in state [s]. *)
  Definition ver_out (s : client_state) (o : op) (x y : out) : Prop :=
    match x, y with
    | OutPanic _, OutPanic _ => True
    | OutUnit, OutUnit => True
    | OutBytes b, OutBytes b' =>
        negotiable level dom /\
        match o with
        | OpNegociate => b = negotiate_bytes m /\ b' = negotiate_bytes (nv m v)
        | OpRecvChallenge _ => False
        | OpAuthenticate r => exists ch a k, ready s m ch /\ valid_challenge ch /\ reply cfg P c m ch r = Val a
            /\ valid_authenticate a /\ fits (authenticate_fields cfg a) /\ b = authenticate_bytes cfg a
            /\ a_version a = None /\ valid_authenticate (with_mic (av a v) k)
            /\ b' = authenticate_bytes cfg (with_mic (av a v) k) /\ mic_relation ch a k
        end
    | _, _ => False
    end.
  Lemma ver_step s s' b b' o : ver_state s s' -> typed_op o ->
    let x := step cfg P (dress c s b) o in let y := step cfg P (dress (versioned c v) s' b') o in
    ver_state (cl_state (fst x)) (cl_state (fst y)) /\ ver_out s o (snd x) (snd y).
  Proof.
    intros [HN HS] Ho. destruct ver_level as [Lv Dm]. pose proof ver_dom as Sd. destruct o as [|ch|r]; cbn [step].
    - rewrite !send_negociate_dress.
      assert (Dl : level <= 5 \/ 5 < level) by lia. destruct Dl as [Dl|Dl].
      + rewrite send_negociate_val by (rewrite ?Lv, ?Dm; try exact Dl; try exact Sd; apply ver_none).
        rewrite send_negociate_versioned by (rewrite ?Lv, ?Dm; assumption).
        rewrite Lv, Dm. fold m. destruct (fitsb (negotiate_fields m)) eqn:Ef; cbn [fst snd].
        * assert (N : negotiable level dom) by (split; [exact Dl|]; apply fitsb_fits in Ef; now apply neg_message_fits in Ef).
          split; [split; [intros _; exact N|]; cbn; auto|]. cbn. auto.
        * split; [split; [exact HN|exact HS]|exact I].
      + assert (X : forall k, cl_level k = level -> exists w, send_negociate k = Panic w).
        { intros k Ek. unfold send_negociate. destruct (negociate_message_panic k) as [w ->]; [now rewrite Ek|]. now exists w. }
        destruct (X c Lv) as [w1 ->]. destruct (X (versioned c v) Lv) as [w2 ->]. cbn [fst snd].
        split; [split; [exact HN|exact HS]|exact I].
    - cbn [fst snd]. split; [|exact I]. unfold recv_challenge. cbn [cl_state dress with_state].
      destruct s as [|n|n ch0|n ch0 a], s' as [|n'|n' ch0'|n' ch0' a']; try (now destruct HS); (split; [first [exact HN|intros _; apply HN; discriminate]|]); try exact HS.
      destruct HS as [-> ->]. cbn [cl_state dress with_state typed_op] in *. auto.
    - assert (R : (exists ch, ready s m ch /\ ready s' (nv m v) ch /\ valid_challenge ch) \/
        ((forall n ch, ~ ready s n ch) /\ (forall n ch, ~ ready s' n ch))).
      { unfold ready. destruct s as [|n|n ch0|n ch0 a], s' as [|n'|n' ch0'|n' ch0' a']; try (now destruct HS).
        - right; split; intros n0 ch0 [H|[? H]]; discriminate H.
        - right; split; intros n0 ch0 [H|[? H]]; discriminate H.
        - left. destruct HS as (-> & -> & -> & V). exists ch0. auto.
        - left. destruct HS as (-> & -> & -> & V & k & ->). exists ch0. eauto 10. }
      destruct R as [(ch & R1 & R2 & V)|[R1 R2]].
      + assert (N : negotiable level dom) by (apply HN; destruct R1 as [->|[? ->]]; discriminate).
        assert (Vm : valid_negotiate m) by now apply neg_message_valid.
        assert (Fm : fits (negotiate_fields m)) by (apply neg_message_fits, N).
        rewrite (send_authenticate_ready cfg P (dress c s b) _ _ r R1), (send_authenticate_ready cfg P (dress (versioned c v) s' b') _ _ r R2).
        rewrite !reply_dress, reply_versioned by apply ver_none. cbn [typed_op] in Ho.
        destruct (reply cfg P c m ch r) as [a|w] eqn:Ea; cbn [obind].
        * destruct (reply_other_negotiate cfg P e level user dom pw target c m (nv m v) ch r a M (proj1 N) V Ho Vm Fm
            (nv_valid _ _ Vm Hv) Fm Ea) as (k & Ek & K0 & K1 & K2).
          rewrite Ek. cbn [obind]. change (av (with_mic a k) v) with (with_mic (av a v) k).
          assert (Va : valid_authenticate a) by (eapply reply_valid; [exact M|exact N|exact V|exact Ho|exact Ea]).
          assert (Vk : valid_authenticate (with_mic (av a v) k)).
          { assert (Bk : is_buffer 16 k).
            { assert (D : level <= 2 \/ 3 <= level) by lia. destruct D as [D|D].
              - rewrite (proj1 (K1 D)). apply Va.
              - destruct (K2 D) as (K & x & _ & _ & -> & _). apply hmac_buffer, M. }
            destruct Va as (V1 & V2 & V3 & V4 & V5 & V6 & V7 & V8 & V9 & V10).
            repeat (split; [assumption|]). split; [apply set_flag_u32; [exact V7|lia]|]. split; [exact Hv|].
            split; [exact Bk|exact V10]. }
          rewrite !authenticate_ser_spec by assumption.
          change (authenticate_fields cfg (with_mic (av a v) k)) with (authenticate_fields cfg a).
          destruct (fitsb (authenticate_fields cfg a)) eqn:Ef; cbn [obind fst snd].
          -- split.
             ++ split; [intros _; exact N|]. destruct R1 as [->|[a1 ->]].
                ** destruct s' as [|n'|n' ch0'|n' ch0' a']; try (now destruct HS). destruct HS as (_ & -> & -> & _).
                   cbn. eauto 10.
                ** destruct s' as [|n'|n' ch0'|n' ch0' a']; now destruct HS.
             ++ split; [exact N|]. apply fitsb_fits in Ef. exists ch, a, k. repeat (split; [assumption || reflexivity|]). exact K2.
          -- split; [split; [exact HN|exact HS]|exact I].
        * destruct (reply cfg P c (nv m v) ch r) as [a'|w'] eqn:Ea'; cbn [obind fst snd].
          -- destruct (reply_other_negotiate cfg P e level user dom pw target c (nv m v) m ch r a' M (proj1 N) V Ho
               (nv_valid _ _ Vm Hv) Fm Vm Fm Ea') as (k & Ek & _). congruence.
          -- split; [split; [exact HN|exact HS]|exact I].
      + destruct (send_authenticate_not_ready cfg P (dress c s b) r R1) as [w1 ->].
        destruct (send_authenticate_not_ready cfg P (dress (versioned c v) s' b') r R2) as [w2 ->].
        cbn [fst snd]. split; [split; [exact HN|exact HS]|exact I].
  Qed.
  Lemma ver_run h : Forall typed_op h -> ver_state (cl_state (run cfg P c h)) (cl_state (run cfg P (versioned c v) h)).
  Proof.
    induction h as [|o h IH] using rev_ind; intros F.
    - cbn. destruct (made_fresh _ _ _ _ _ _ _ _ _ M) as (-> & _). split; [intros X; now destruct X|exact I].
    - apply Forall_app in F. destruct F as [F Fo]. inversion Fo as [|? ? Ho _]; subst. specialize (IH F).
      rewrite !run_snoc. destruct (run_dress cfg P c h) as (s & b & E). destruct (run_dress cfg P (versioned c v) h) as (s' & b' & E').
      rewrite E, E' in *. apply ver_step; assumption.
  Qed.
  Lemma ver_answer h o : Forall typed_op h -> typed_op o ->
    ver_out (cl_state (run cfg P c h)) o (answer cfg P c h o) (answer cfg P (versioned c v) h o).
  Proof.
    intros F Ho. pose proof (ver_run h F) as R. unfold answer.
    destruct (run_dress cfg P c h) as (s & b & E). destruct (run_dress cfg P (versioned c v) h) as (s' & b' & E').
    rewrite E, E' in *. now apply ver_step.
  Qed.
End Versioned.

(** ** Offsets in messages with a version *)
Lemma negotiate_by_offset n : valid_negotiate n -> fits (negotiate_fields n) ->
  let b := negotiate_bytes n in
  field_data b 16 = content (opt_map utf8 (n_domain n)) /\ field_data b 24 = content (opt_map utf8 (n_workstation n))
  /\ u32_at b 12 = n_flags n
  /\ sub b 32 (len (opt_version_bytes (n_version n))) = opt_version_bytes (n_version n)
  /\ len b = 32 + len (opt_version_bytes (n_version n)) + len (contents (negotiate_fields n))
  /\ skipn (N.to_nat (32 + len (opt_version_bytes (n_version n)))) b = contents (negotiate_fields n).
Proof.
  intros Hv Hf b. pose proof (negotiate_layout n Hv Hf) as L. fold b in L. unfold negotiate_fields in L. cbn [combine] in L.
  destruct L as (L1 & L2 & _). apply field_at_data in L1. apply field_at_data in L2.
  split; [exact L1|]. split; [exact L2|]. set (vb := opt_version_bytes (n_version n)).
  set (ds := concat (descriptors (32 + len vb) (negotiate_fields n))).
  assert (Hds : len ds = 16).
  { unfold ds, negotiate_fields. cbn [descriptors concat]. rewrite app_nil_r, !len_app, !len_descriptor. reflexivity. }
  assert (E : b = (NTLMSSP ++ le32 1) ++ le32 (n_flags n) ++ ds ++ vb ++ contents (negotiate_fields n)).
  { unfold b, negotiate_bytes. fold vb. fold ds. now rewrite <- !app_assoc. }
  split; [|split; [|split]].
  - rewrite E. change 12 with (len (NTLMSSP ++ le32 1)). apply u32_at_le32. apply Hv.
  - rewrite E. rewrite (app_assoc (le32 _) ds), (app_assoc (NTLMSSP ++ le32 1)). apply sub_app; [|reflexivity].
    rewrite !len_app, Hds, !len_le32. reflexivity.
  - rewrite E. rewrite !len_app, Hds, !len_le32, len_NTLMSSP. lia.
  - rewrite E, !app_assoc. apply skipn_app_exact. rewrite <- len_nat, !len_app, Hds, !len_le32, len_NTLMSSP. lia.
Qed.
Lemma authenticate_by_offset_version cfg a : valid_authenticate a -> fits (authenticate_fields cfg a) ->
  let b := authenticate_bytes cfg a in let vb := opt_version_bytes (a_version a) in
  sub b 64 (len vb) = vb /\ sub b (64 + len vb) 16 = a_mic a
  /\ len b = 80 + len vb + len (contents (authenticate_fields cfg a))
  /\ skipn (N.to_nat (80 + len vb)) b = contents (authenticate_fields cfg a).
Proof.
  intros Hv Hf b vb. assert (Hmic : is_buffer 16 (a_mic a)) by apply Hv. apply len_buffer in Hmic.
  set (ds := concat (descriptors (64 + len vb + len (a_mic a)) (authenticate_fields cfg a))).
  assert (Hds : len ds = 48).
  { unfold ds, authenticate_fields. cbn [descriptors concat]. rewrite app_nil_r, !len_app, !len_descriptor. reflexivity. }
  assert (E : b = (NTLMSSP ++ le32 3 ++ ds ++ le32 (a_flags a)) ++ vb ++ a_mic a ++ contents (authenticate_fields cfg a)).
  { unfold b, authenticate_bytes. fold vb. fold ds. now rewrite <- !app_assoc. }
  assert (H64 : len (NTLMSSP ++ le32 3 ++ ds ++ le32 (a_flags a)) = 64) by (rewrite !len_app, Hds, !len_le32; reflexivity).
  split; [|split; [|split]].
  - rewrite E. now apply sub_app.
  - rewrite E, (app_assoc _ vb). apply sub_app; [now rewrite len_app, H64|exact Hmic].
  - rewrite E, len_app, H64, !len_app, Hmic. lia.
  - rewrite E, (app_assoc _ vb), (app_assoc _ (a_mic a)). apply skipn_app_exact.
    rewrite <- len_nat, len_app, len_app, H64, Hmic. lia.
Qed.
Lemma version_at_end b o v : valid_version v -> sub b o 8 = version_bytes v -> byte_at b (o + 7) = v_revision v.
Proof.
  intros (_ & _ & _ & H) E. apply (f_equal (fun x => nth 7 x 0)) in E. unfold sub in E. rewrite nth_firstn_lt in E by (cbn; lia).
  rewrite nth_skipn_add in E. cbn [version_bytes le16 app nth] in E. unfold byte_at. unfold is_u8 in H.
  replace (N.to_nat (o + 7)) with (N.to_nat o + 7)%nat by lia. rewrite E. lia.
Qed.
Lemma len_version v : len (version_bytes v) = 8.
Proof. reflexivity. Qed.
Lemma set_25_bits f i : N.testbit (set_flag f 25) i = if i =? 25 then true else N.testbit f i.
Proof. apply set_flag_bits. Qed.

(** ** C96 *)
(** A version set does not change which calls panic. *)
Lemma C96_panics_lem : forall cfg P e level user dom pw target c v h o,
  made cfg P e level user dom pw target c -> valid_version v -> Forall typed_op h -> typed_op o ->
  ((exists w, answer cfg P (versioned c v) h o = OutPanic w) <-> (exists w, answer cfg P c h o = OutPanic w)).
Proof.
  intros cfg P e level user dom pw target c v h o M Hv F Ho.
  pose proof (ver_answer cfg P e level user dom pw target c v M Hv h o F Ho) as R. unfold ver_out in R.
  destruct (answer cfg P c h o) as [b| |w], (answer cfg P (versioned c v) h o) as [b'| |w']; try (now destruct R);
    split; intros [? X]; try discriminate X; eauto.
Qed.
(** The NEGOTIATE message is the one without a version, with the version put in. *)
Lemma C96_negotiate_lem : forall cfg P e level user dom pw target c v h b0,
  made cfg P e level user dom pw target c -> valid_version v -> Forall typed_op h ->
  answer cfg P c h OpNegociate = OutBytes b0 ->
  exists b, answer cfg P (versioned c v) h OpNegociate = OutBytes b
    /\ announces b0 b v 12 32 [16; 24] /\ skipn 40 b = skipn 32 b0
    /\ (forall cs, negotiate_de cs b = if v_revision v =? 15
          then POk [] (mkNegotiate (u32_at b 12) (if is_nil dom then None else Some dom) None (Some v)) else PErr EError).
Proof.
  intros cfg P e level user dom pw target c v h b0 M Hv F A.
  pose proof (ver_answer cfg P e level user dom pw target c v M Hv h OpNegociate F I) as R. rewrite A in R. unfold ver_out in R.
  destruct (answer cfg P (versioned c v) h OpNegociate) as [b| |w]; try (now destruct R).
  destruct R as (N & -> & ->). set (m := neg_message level dom).
  assert (Sd : is_string dom) by apply M.
  assert (Vm : valid_negotiate m) by now apply neg_message_valid.
  assert (Fm : fits (negotiate_fields m)) by (apply neg_message_fits, N).
  pose proof (nv_valid _ _ Vm Hv) as Vn.
  destruct (negotiate_by_offset m Vm Fm) as (A1 & A2 & A3 & A4 & A5 & A6). destruct (negotiate_by_offset (nv m v) Vn Fm) as (B1 & B2 & B3 & B4 & B5 & B6).
  cbn [nv n_version opt_version_bytes n_flags n_domain n_workstation] in *. rewrite len_version in *.
  exists (negotiate_bytes (nv m v)). split; [reflexivity|]. split; [|split].
  - split; [rewrite A5, B5; cbn; lia|]. split; [exact B4|]. split.
    + intros i. rewrite A3, B3. apply set_25_bits.
    + intros o [<-|[<-|[]]]; [now rewrite A1, B1|now rewrite A2, B2].
  - transitivity (contents (negotiate_fields m)); [exact B6|symmetry; exact A6].
  - intros cs. rewrite B3. destruct (v_revision v =? 15) eqn:Er.
    + rewrite <- (app_nil_r (negotiate_bytes (nv m v))), negotiate_seen; [|exact Vn|].
      * f_equal. unfold seen_negotiate, nv. cbn. destruct dom; reflexivity.
      * split; [exact Fm|]. split; [cbn [n_flags nv]; now rewrite set_25_bits|lia].
    + rewrite negotiate_de_spec. unfold negotiate_headerb, opt_version_ok. rewrite B3, set_25_bits. cbn [N.eqb Pos.eqb].
      unfold version_ok. rewrite (version_at_end _ _ _ Hv B4), Er, !andb_false_r. reflexivity.
Qed.
(** The reply is the one without a version, with the version put in and
    another MIC; the session key is the same. *)
Lemma C96_reply_lem : forall cfg P e level user dom pw target c v h r b0,
  made cfg P e level user dom pw target c -> valid_version v -> Forall typed_op h -> is_entropy r ->
  answer cfg P c h (OpAuthenticate r) = OutBytes b0 ->
  exists b, answer cfg P (versioned c v) h (OpAuthenticate r) = OutBytes b
    /\ announces b0 b v 60 64 [12; 20; 28; 36; 44; 52] /\ skipn 88 b = skipn 80 b0
    /\ session_key (run cfg P (versioned c v) (h ++ [OpAuthenticate r])) = session_key (run cfg P c (h ++ [OpAuthenticate r]))
    /\ (level <= 2 -> sub b 72 16 = zeros 16).
Proof.
  intros cfg P e level user dom pw target c v h r b0 M Hv F Hr A.
  pose proof (ver_answer cfg P e level user dom pw target c v M Hv h (OpAuthenticate r) F Hr) as R. rewrite A in R. unfold ver_out in R.
  destruct (answer cfg P (versioned c v) h (OpAuthenticate r)) as [b| |w]; try (now destruct R).
  destruct R as (N & ch & a & k & Rd & V & Ea & Va & Fa & -> & Hn & Vk & -> & K1 & K2).
  set (a' := with_mic (av a v) k) in *.
  assert (Fa' : fits (authenticate_fields cfg a')) by exact Fa.
  destruct (authenticate_by_offset cfg a Va Fa) as (A1 & A2 & A3 & A4 & A5 & A6 & A7 & A8).
  destruct (authenticate_by_offset cfg a' Vk Fa') as (B1 & B2 & B3 & B4 & B5 & B6 & B7 & _).
  destruct (authenticate_by_offset_version cfg a Va Fa) as (C1 & C2 & C3 & C4).
  destruct (authenticate_by_offset_version cfg a' Vk Fa') as (D1 & D2 & D3 & D4).
  rewrite Hn in *. change (opt_version_bytes (a_version a')) with (version_bytes v) in *. rewrite len_version in *. change (64 + 8) with 72 in *.
  exists (authenticate_bytes cfg a'). split; [reflexivity|]. split; [|split; [|split]].
  - split; [rewrite C3, D3; change (authenticate_fields cfg a') with (authenticate_fields cfg a); change (len (opt_version_bytes None)) with 0; lia|].
    split; [exact D1|]. split; [intros i; rewrite A7, B7; apply set_25_bits|].
    intros o Ho. repeat (destruct Ho as [<-|Ho]); [rewrite A1, B1|rewrite A2, B2|rewrite A3, B3|rewrite A4, B4|rewrite A5, B5|rewrite A6, B6|destruct Ho]; reflexivity.
  - transitivity (contents (authenticate_fields cfg a)); [exact D4|symmetry; exact C4].
  - assert (Fr : Forall typed_op (h ++ [OpAuthenticate r])) by (apply Forall_app; split; [exact F|constructor; [exact Hr|constructor]]).
    destruct (ver_run cfg P e level user dom pw target c v M Hv _ Fr) as [_ S]. unfold session_key.
    destruct (cl_state (run cfg P c (h ++ [OpAuthenticate r]))) as [| | |n c0 a0],
      (cl_state (run cfg P (versioned c v) (h ++ [OpAuthenticate r]))) as [| | |n' c0' a0']; try (now destruct S).
    destruct S as (_ & _ & _ & _ & j & ->). reflexivity.
  - intros L. rewrite D2. change (a_mic a') with k. apply (K1 L).
Qed.
(** From level 3 on the MIC is computed as without a version, over the
    NEGOTIATE sent: the AUTHENTICATE message under it is still one without the
    version and its flag. *)
Lemma C96_mic_lem : forall cfg P e level user dom pw target c v h ch r b0 K b nb0 nb,
  made cfg P e level user dom pw target c -> valid_version v -> Forall typed_op h -> 3 <= level ->
  concludes cfg P c h ch r b0 K ->
  answer cfg P (versioned c v) h (OpAuthenticate r) = OutBytes b ->
  answer cfg P c h OpNegociate = OutBytes nb0 -> answer cfg P (versioned c v) h OpNegociate = OutBytes nb ->
  exists d, sub b0 64 16 = p_hmac_md5 P K (nb0 ++ challenge_bytes cfg ch ++ d)
    /\ sub b 72 16 = p_hmac_md5 P K (nb ++ challenge_bytes cfg ch ++ d)
    /\ u32_at d 60 = 1073741825 /\ sub d 64 16 = zeros 16.
Proof.
  intros cfg P e level user dom pw target c v h ch r b0 K b nb0 nb M Hv F L (V & Hr & Ac & S0 & A & SK) B Nb0 Nb.
  pose proof (ver_answer cfg P e level user dom pw target c v M Hv h OpNegociate F I) as Rn. rewrite Nb0, Nb in Rn.
  destruct Rn as (N & -> & ->). 
  pose proof (ver_answer cfg P e level user dom pw target c v M Hv h (OpAuthenticate r) F Hr) as R. rewrite A, B in R.
  destruct R as (_ & ch' & a & k & Rd & V' & Ea & Va & Fa & -> & Hn & Vk & -> & K1 & K2).
  destruct (made_level _ _ _ _ _ _ _ _ _ M) as [Lv Dm].
  assert (Nc : negotiable (cl_level c) (cl_domain c)) by now rewrite Lv, Dm.
  pose proof (made_fresh _ _ _ _ _ _ _ _ _ M) as Fr.
  destruct (run_states cfg P c Fr h Nc) as (_ & _ & R). specialize (R _ Ac). rewrite Lv, Dm in R.
  assert (ch' = ch) by (destruct Rd as [Rd|[x Rd]], R as [R|[y R]]; congruence). subst ch'.
  destruct (after_reply cfg P c h ch r _ Fr Nc Ac A) as [AR _]. destruct (AR S0) as (a0 & E0 & EK). rewrite Lv, Dm, Ea in E0.
  apply val_inj in E0. subst a0. rewrite SK in EK.
  destruct (K2 L) as (K' & x & X1 & X2 & X3 & X4 & X5). rewrite X1 in EK. injection EK as <-.
  exists x. destruct (authenticate_by_offset_version cfg a Va Fa) as (_ & C2 & _).
  destruct (authenticate_by_offset_version cfg _ Vk Fa) as (_ & D2 & _). rewrite Hn in C2.
  split; [transitivity (a_mic a); [exact C2|exact X2]|]. split; [transitivity k; [exact D2|exact X3]|]. auto.
Qed.
(** Servers that use the crate read the reply if the revision is 15 -- also
    where the server asks for versions (contrast C42) -- and else never. *)
Lemma C96_decodes_lem : forall cfg P e level user dom pw target c v h r b,
  host_le cfg = true -> made cfg P e level user dom pw target c -> valid_version v -> Forall typed_op h -> is_entropy r -> level <= 2 ->
  answer cfg P (versioned c v) h (OpAuthenticate r) = OutBytes b -> v_revision v = 15 ->
  exists a, authenticate_de cfg b = POk [] a /\ a_version a = Some v /\ a_flags a = u32_at b 60
    /\ a_nt a = Some (NtV1 (field_data b 20)) /\ a_user a = seen_text (Some user) /\ a_domain a = seen_text (Some dom).
Proof.
  intros cfg P e level user dom pw target c v h r b Hle M Hv F Hr L A Rv.
  pose proof (ver_answer cfg P e level user dom pw target c v M Hv h (OpAuthenticate r) F Hr) as R. rewrite A in R. unfold ver_out in R.
  destruct (answer cfg P c h (OpAuthenticate r)) as [b0| |w]; try (now destruct R).
  destruct R as (N & ch & a & k & Rd & V & Ea & Va & Fa & _ & Hn & Vk & -> & K1 & K2).
  set (a' := with_mic (av a v) k) in *.
  assert (HP : prims_ok P) by apply M.
  destruct (made_fields _ _ _ _ _ _ _ _ _ M) as (klm & ws & Hk & _ & Ec).
  assert (C1 : cl_level c <= 2) by (rewrite Ec; exact L).
  assert (C2 : cl_version c = None) by (rewrite Ec; reflexivity).
  assert (Kl : is_buffer 16 (cl_lm_hash c)) by (rewrite Ec; eapply lmowfv1_buffer; [exact HP|exact Hk]).
  assert (Kn : is_buffer 16 (cl_nt_hash c)) by (rewrite Ec; now apply ntowfv1_buffer).
  assert (Hs : is_buffer 8 (ch_server_challenge ch)) by apply V.
  rewrite (reply_v1 cfg P c _ ch r HP C1 C2 Kn Kl Hs Hr) in Ea. apply val_inj in Ea.
  assert (Eu : a_user a' = Some user) by (unfold a'; rewrite <- Ea, Ec; reflexivity).
  assert (Ed : a_domain a' = Some dom) by (unfold a'; rewrite <- Ea, Ec; reflexivity).
  assert (En : exists nt, a_nt a' = Some (NtV1 nt)) by (unfold a'; rewrite <- Ea; eexists; reflexivity). destruct En as [nt En].
  destruct (authenticate_by_offset cfg a' Vk Fa) as (_ & B2 & _ & _ & _ & _ & B7 & _).
  exists (seen_authenticate a'). split; [|split; [|split; [|split; [|split]]]].
  - rewrite <- (app_nil_r (authenticate_bytes cfg a')). apply authenticate_seen; [exact Hle|exact Vk|].
    split; [exact Fa|]. split; [rewrite En; exact I|]. split; [|exact Rv]. change (a_flags a') with (set_flag (a_flags a) 25).
    now rewrite set_25_bits.
  - reflexivity.
  - now rewrite B7.
  - rewrite B2, En. unfold seen_authenticate. cbn [a_nt]. rewrite En. reflexivity.
  - unfold seen_authenticate. cbn [a_user]. now rewrite Eu.
  - unfold seen_authenticate. cbn [a_domain]. now rewrite Ed.
Qed.
(** Levels 3 to 5, for every challenge that came over the wire. *)
Lemma C96_decodes_new_lem : forall cfg P e level user dom pw target c v h w rest ch r b,
  host_le cfg = true -> made cfg P e level user dom pw target c -> valid_version v -> Forall typed_op h -> is_entropy r -> 3 <= level ->
  accepts h ch -> is_bytes w -> challenge_de cfg w = POk rest ch -> host_time cfg (e_clock r) ->
  answer cfg P (versioned c v) h (OpAuthenticate r) = OutBytes b -> v_revision v = 15 ->
  exists t a, authenticate_de cfg b = POk [] a /\ response_time ch r = Some t /\ a_version a = Some v /\ a_flags a = u32_at b 60
    /\ a_nt a = Some (NtV2 (mkNtv2 t (e_client_challenge r) (ch_target_infos ch)))
    /\ a_user a = seen_text (Some user) /\ a_domain a = seen_text (Some dom) /\ a_mic a = sub b 72 16.
Proof.
  intros cfg P e level user dom pw target c v h w rest ch r b Hle M Hv F Hr L Ac Wb Hde Hh A Rv.
  pose proof (ver_answer cfg P e level user dom pw target c v M Hv h (OpAuthenticate r) F Hr) as R. rewrite A in R. unfold ver_out in R.
  destruct (answer cfg P c h (OpAuthenticate r)) as [b0| |x]; try (now destruct R).
  destruct R as (N & ch' & a & k & Rd & V & Ea & Va & Fa & _ & Hn & Vk & -> & _ & _).
  destruct (made_level _ _ _ _ _ _ _ _ _ M) as [Lv Dm]. pose proof (made_fresh _ _ _ _ _ _ _ _ _ M) as Fr.
  assert (Nc : negotiable (cl_level c) (cl_domain c)) by now rewrite Lv, Dm.
  destruct (run_states cfg P c Fr h Nc) as (_ & _ & R). specialize (R _ Ac). rewrite Lv, Dm in R.
  assert (ch' = ch) by (destruct Rd as [Rd|[x Rd]], R as [R|[y R]]; congruence). subst ch'.
  apply C53_decoded_challenge_lem in Hde; [|exact Wb]. destruct Hde as [_ Hs].
  destruct (challenge_says_good cfg w ch Hle Wb Hs) as (_ & (_ & Hav & _) & _).
  set (a' := with_mic (av a v) k) in *. assert (HP : prims_ok P) by apply M.
  destruct (made_fields _ _ _ _ _ _ _ _ _ M) as (klm & ws & Hk & _ & Ec).
  assert (C1 : 3 <= cl_level c <= 5) by (rewrite Lv; destruct N; lia).
  assert (C2 : cl_version c = None) by apply Fr.
  assert (C3 : is_string (cl_username c)) by (rewrite Ec; apply M).
  assert (C4 : is_string (cl_domain c)) by (rewrite Ec; apply M).
  assert (Vm : valid_negotiate (neg_message level dom)) by (apply neg_message_valid, M).
  assert (Fm : fits (negotiate_fields (neg_message level dom))) by (apply neg_message_fits, N).
  destruct (reply_v2 cfg P c _ ch r HP C1 C2 C3 C4 V Hr Vm Fm) as [_ B]. destruct (B _ Ea) as (t & T & _ & _ & _ & _ & E). clear B Ea.
  assert (Eu : a_user a' = Some user) by (unfold a'; rewrite E, Ec; reflexivity).
  assert (Ed : a_domain a' = Some dom) by (unfold a'; rewrite E, Ec; reflexivity).
  assert (En : a_nt a' = Some (NtV2 (mkNtv2 t (e_client_challenge r) (ch_target_infos ch)))) by (unfold a'; rewrite E; reflexivity).
  destruct (authenticate_by_offset cfg a' Vk Fa) as (_ & _ & _ & _ & _ & _ & B7 & _).
  destruct (authenticate_by_offset_version cfg a' Vk Fa) as (_ & D2 & _).
  exists t, (seen_authenticate a'). split; [|split; [exact T|split; [reflexivity|split; [|split; [|split; [|split]]]]]].
  - rewrite <- (app_nil_r (authenticate_bytes cfg a')). apply authenticate_seen; [exact Hle|exact Vk|].
    split; [exact Fa|]. split.
    + rewrite En. cbn [valid_opt carried_nt]. split; [now apply (response_time_decodable cfg ch r)|exact Hav].
    + split; [|exact Rv]. change (a_flags a') with (set_flag (a_flags a) 25). now rewrite set_25_bits.
  - now rewrite B7.
  - unfold seen_authenticate. cbn [a_nt]. exact En.
  - unfold seen_authenticate. cbn [a_user]. now rewrite Eu.
  - unfold seen_authenticate. cbn [a_domain]. now rewrite Ed.
  - symmetry. exact D2.
Qed.
Lemma C96_revision_lem : forall cfg cs P e level user dom pw target c v h r b,
  made cfg P e level user dom pw target c -> valid_version v -> Forall typed_op h -> is_entropy r ->
  answer cfg P (versioned c v) h (OpAuthenticate r) = OutBytes b -> v_revision v <> 15 ->
  authenticate_de cs b = PErr EError.
Proof.
  intros cfg cs P e level user dom pw target c v h r b M Hv F Hr A Rv.
  pose proof (ver_answer cfg P e level user dom pw target c v M Hv h (OpAuthenticate r) F Hr) as R. rewrite A in R. unfold ver_out in R.
  destruct (answer cfg P c h (OpAuthenticate r)) as [b0| |w]; try (now destruct R).
  destruct R as (N & ch & a & k & Rd & V & Ea & Va & Fa & _ & Hn & Vk & -> & K1 & K2).
  destruct (authenticate_by_offset cfg _ Vk Fa) as (_ & _ & _ & _ & _ & _ & B7 & _).
  destruct (authenticate_by_offset_version cfg _ Vk Fa) as (D1 & _).
  rewrite authenticate_de_spec. unfold authenticate_headerb, opt_version_ok. rewrite B7.
  change (a_flags (with_mic (av a v) k)) with (set_flag (a_flags a) 25). rewrite set_25_bits. cbn [N.eqb Pos.eqb].
  unfold version_ok. rewrite (version_at_end _ _ _ Hv D1). replace (v_revision v =? 15) with false by lia.
  rewrite !andb_false_r. reflexivity.
Qed.
(** Version 5.1.2600, at level 2 towards a server that asks for versions, and at level 3. *)
Example C96_ex_lem : valid_version windows_xp
  /\ made cfg_debug real_prims host_env 2 str_User str_Domain str_Password str_target (sample_client 2)
  /\ Forall typed_op (sample_history versioned_challenge) /\ is_entropy sample_entropy
  /\ N.testbit (ch_flags versioned_challenge) 25 = true
  /\ (exists b0 b a, answer cfg_debug real_prims (sample_client 2) (sample_history versioned_challenge) (OpAuthenticate sample_entropy) = OutBytes b0
      /\ authenticate_de cfg_debug b0 = PErr EError
      /\ answer cfg_debug real_prims (versioned (sample_client 2) windows_xp) (sample_history versioned_challenge) (OpAuthenticate sample_entropy) = OutBytes b
      /\ authenticate_de cfg_debug b = POk [] a /\ a_version a = Some windows_xp)
  /\ concludes cfg_debug real_prims (sample_client 3) (sample_history sealed_challenge) sealed_challenge sample_entropy
       (sample_reply 3 sealed_challenge) (repeat 85 16)
  /\ (exists b nb, answer cfg_debug real_prims (versioned (sample_client 3) windows_xp) (sample_history sealed_challenge) (OpAuthenticate sample_entropy) = OutBytes b
      /\ answer cfg_debug real_prims (versioned (sample_client 3) windows_xp) (sample_history sealed_challenge) OpNegociate = OutBytes nb
      /\ sub nb 32 8 = [5; 1; 40; 10; 0; 0; 0; 15] /\ sub b 64 8 = [5; 1; 40; 10; 0; 0; 0; 15]).
Proof.
  split; [repeat split; vm_compute; reflexivity|]. split; [apply sample_made|]. split.
  { pose proof sample_entropy_ok. pose proof old_valid. pose proof versioned_valid. pose proof sealed_valid.
    unfold sample_history. repeat (constructor; [cbn [typed_op]; auto|]). constructor. }
  split; [apply sample_entropy_ok|]. split; [reflexivity|]. split; [|split].
  - eexists. eexists. eexists. split; [vm_compute; reflexivity|]. split; [vm_compute; reflexivity|].
    split; [vm_compute; reflexivity|]. split; vm_compute; reflexivity.
  - apply sample_concludes; [exact sealed_valid|vm_compute; reflexivity|vm_compute; reflexivity|vm_compute; reflexivity].
  - eexists. eexists. split; [vm_compute; reflexivity|]. split; [vm_compute; reflexivity|]. split; vm_compute; reflexivity.
Qed.
