(** Facts about encodings: byte accounting, layout, oversize, round trips. *)
From Coq Require Import ZifyBool ZifyNat ZifyN.
From Verif Require Import Base Nom Unicode Wire Structures Messages Spec Lib Encode Decode RoundTrip Parse Samples.

Ltac Zify.zify_post_hook ::= Z.div_mod_to_equations.

(** ** C01 *)
Lemma counts_writes s b : writes s b -> counts_bytes s.
Proof. intros H w n w'. rewrite H. intros E; injection E as <- <-. eauto. Qed.
Lemma counts_cond s b (c : bool) : (forall w, s w = if c then Val (len b, w ++ b) else Panic PExpect) -> counts_bytes s.
Proof. intros H w n w'. rewrite H. destruct c; [|discriminate]. intros E; injection E as <- <-. eauto. Qed.
Lemma counts_seqw s t : counts_bytes s -> counts_bytes t -> counts_bytes (s +++ t).
Proof.
  intros Hs Ht w n w'. unfold seqw. destruct (s w) as [[n1 w1]|] eqn:E1; cbn [obind]; [|discriminate].
  destruct (t w1) as [[n2 w2]|] eqn:E2; cbn [obind]; [|discriminate].
  intros E; injection E as <- <-.
  destruct (Hs _ _ _ E1) as (b1 & -> & ->). destruct (Ht _ _ _ E2) as (b2 & -> & ->).
  exists (b1 ++ b2). now rewrite len_app, app_assoc.
Qed.
Lemma counts_vec {T} (s : T -> ser) l : (forall x, In x l -> counts_bytes (s x)) -> counts_bytes (ser_vec s l).
Proof.
  induction l as [|x l IH]; intros H w n w'; cbn [ser_vec].
  - intros E; injection E as <- <-. exists []. now rewrite app_nil_r.
  - destruct (s x w) as [[n1 w1]|] eqn:E1; cbn [obind]; [|discriminate].
    destruct (ser_vec s l w1) as [[n2 w2]|] eqn:E2; cbn [obind]; [|discriminate].
    intros E; injection E as <- <-.
    destruct (H x (or_introl eq_refl) _ _ _ E1) as (b1 & -> & ->).
    destruct (IH (fun y Hy => H y (or_intror Hy)) _ _ _ E2) as (b2 & -> & ->).
    exists (b1 ++ b2). now rewrite len_app, app_assoc.
Qed.
Lemma counts_av cfg a : valid_av_pair a -> counts_bytes (av_pair_ser cfg a).
Proof.
  intros H. destruct (N.le_gt_cases (len (av_value cfg a)) 65535) as [Hl|Hl].
  - eapply counts_writes, writes_av; assumption.
  - intros w n w'. rewrite panics_av by assumption. discriminate.
Qed.
(** Serialising into an existing buffer appends bytes and reports how many,
    for every type of the wire format. *)
Lemma C01_byte_accounting_lem : forall cfg,
  (forall f, counts_bytes (flags_ser f))
  /\ (forall f, counts_bytes (field_ser f))
  /\ (forall s, counts_bytes (oem_ser s))
  /\ (forall s, counts_bytes (unicode_ser s))
  /\ (forall v, counts_bytes (version_ser v))
  /\ (forall t, counts_bytes (filetime_ser t))
  /\ (forall h, counts_bytes (single_host_ser h))
  /\ (forall n b, is_buffer n b -> counts_bytes (buf_ser n b))
  /\ (forall s, is_buffer 4 (sg_pad s) -> counts_bytes (signature_ser s))
  /\ (forall i, counts_bytes (av_id_ser i))
  /\ (forall f, counts_bytes (av_flags_ser f))
  /\ (forall a, valid_av_pair a -> counts_bytes (av_pair_ser cfg a))
  /\ (forall l, Forall valid_av_pair l -> counts_bytes (ser_vec (av_pair_ser cfg) l))
  /\ (forall c, valid_lm c -> counts_bytes (lm_challenge_ser c))
  /\ (forall c, valid_nt c -> counts_bytes (nt_challenge_ser cfg c))
  /\ (forall n, valid_negotiate n -> counts_bytes (negotiate_ser n))
  /\ (forall c, valid_challenge c -> counts_bytes (challenge_ser cfg c))
  /\ (forall a, valid_authenticate a -> counts_bytes (authenticate_ser cfg a)).
Proof.
  intros cfg. repeat match goal with |- _ /\ _ => split end.
  - intros f. eapply counts_writes, writes_flags.
  - intros f. eapply counts_writes, writes_field.
  - intros s. eapply counts_writes, writes_oem.
  - intros s. eapply counts_writes, writes_unicode.
  - intros v. eapply counts_writes, writes_version.
  - intros t. eapply counts_writes, writes_filetime.
  - intros h. eapply counts_writes, writes_single_host.
  - intros n b [H _]. eapply counts_writes, writes_buf, H.
  - intros s [H _]. eapply counts_writes, writes_signature, H.
  - intros i. eapply counts_writes, writes_u16.
  - intros f. eapply counts_writes, writes_u32.
  - apply counts_av.
  - intros l H. apply counts_vec. intros x Hx. apply counts_av. rewrite Forall_forall in H. auto.
  - intros c H. eapply counts_writes, writes_lm, H.
  - intros c H. eapply counts_cond. intros w. apply nt_spec, H.
  - intros n H. eapply counts_cond. intros w. apply negotiate_ser_spec, H.
  - intros c H. eapply counts_cond. intros w. apply challenge_ser_spec, H.
  - intros a H. eapply counts_cond. intros w. apply authenticate_ser_spec, H.
Qed.
(** [serialize] returns exactly the bytes written; its debug assertion that
    compares the count with the buffer length never fires. *)
Lemma C01_serialize_returns_bytes_lem : forall cfg s n b,
  counts_bytes s -> s [] = Val (n, b) -> serialize cfg s = Val b /\ n = len b.
Proof.
  intros cfg s n b H E. unfold serialize. rewrite E. cbn [obind].
  destruct (H _ _ _ E) as (b' & -> & ->). cbn [app]. rewrite N.eqb_refl, andb_false_r. auto.
Qed.
Lemma sample_negotiate_ok : valid_negotiate sample_negotiate /\ carried_negotiate sample_negotiate.
Proof. closed_valid. Qed.
Lemma sample_challenge_ok : valid_challenge sample_challenge /\ carried_challenge cfg_debug sample_challenge.
Proof.
  split; [closed_valid|]. split; [closed_valid|]. split; [closed_valid|]. split; [closed_valid|].
  split; [|closed_valid]. right. exists (removelast sample_infos). reflexivity.
Qed.
Lemma sample_authenticate_ok : valid_authenticate sample_authenticate /\ carried_authenticate cfg_debug sample_authenticate.
Proof. closed_valid. Qed.

Example C01_byte_accounting_ex_lem :
  valid_authenticate sample_authenticate
  /\ exists n w', authenticate_ser cfg_debug sample_authenticate [1; 2; 3] = Val (n, w') /\ n = 314 /\ len w' = 317.
Proof.
  split; [apply sample_authenticate_ok|].
  eexists; eexists. split; [vm_compute; reflexivity|]. split; reflexivity.
Qed.

(** ** C22 *)
Definition fitsb_dec fs : {fits fs} + {~ fits fs}.
Proof.
  destruct (fitsb fs) eqn:E; [left; now apply fitsb_fits|right].
  intros H. apply fitsb_fits in H. congruence.
Defined.
Lemma fitsb_not fs : ~ fits fs -> fitsb fs = false.
Proof. intros H. destruct (fitsb fs) eqn:E; [|reflexivity]. apply fitsb_fits in E. contradiction. Qed.
Lemma serialize_spec cfg s b (c : bool) :
  s [] = (if c then Val (len b, [] ++ b) else Panic PExpect) ->
  serialize cfg s = if c then Val b else Panic PExpect.
Proof.
  intros H. unfold serialize. rewrite H. destruct c; [|reflexivity]. cbn [obind app].
  rewrite N.eqb_refl, andb_false_r. reflexivity.
Qed.
Lemma negotiate_serialize cfg n : valid_negotiate n ->
  serialize cfg (negotiate_ser n) = if fitsb (negotiate_fields n) then Val (negotiate_bytes n) else Panic PExpect.
Proof. intros H. apply serialize_spec, negotiate_ser_spec, H. Qed.
Lemma challenge_serialize cfg c : valid_challenge c ->
  serialize cfg (challenge_ser cfg c) = if fitsb (challenge_fields cfg c) then Val (challenge_bytes cfg c) else Panic PExpect.
Proof. intros H. apply serialize_spec, challenge_ser_spec, H. Qed.
Lemma authenticate_serialize cfg a : valid_authenticate a ->
  serialize cfg (authenticate_ser cfg a) = if fitsb (authenticate_fields cfg a) then Val (authenticate_bytes cfg a) else Panic PExpect.
Proof. intros H. apply serialize_spec, authenticate_ser_spec, H. Qed.

Lemma oversize_cases {A} (b : A) fs (o : outcome A) :
  o = (if fitsb fs then Val b else Panic PExpect) ->
  ((exists x, o = Val x) <-> fits fs) /\ ((exists r, o = Panic r) <-> ~ fits fs).
Proof.
  intros ->. destruct (fitsb_dec fs) as [H|H].
  - pose proof H as H'. apply fitsb_fits in H'. rewrite H'. split; split; intros; try tauto; eauto.
    destruct H0; discriminate.
  - rewrite (fitsb_not _ H). split; split; intros; try tauto; eauto. destruct H0; discriminate.
Qed.
(** A message encodes exactly when every variable field fits 65535 bytes and panics exactly otherwise. *)
Lemma C22_encoding_panics_iff_oversized_lem : forall cfg,
  (forall n, valid_negotiate n ->
     ((exists b, serialize cfg (negotiate_ser n) = Val b) <-> fits (negotiate_fields n))
     /\ ((exists r, serialize cfg (negotiate_ser n) = Panic r) <-> ~ fits (negotiate_fields n)))
  /\ (forall c, valid_challenge c ->
     ((exists b, serialize cfg (challenge_ser cfg c) = Val b) <-> fits (challenge_fields cfg c))
     /\ ((exists r, serialize cfg (challenge_ser cfg c) = Panic r) <-> ~ fits (challenge_fields cfg c)))
  /\ (forall a, valid_authenticate a ->
     ((exists b, serialize cfg (authenticate_ser cfg a) = Val b) <-> fits (authenticate_fields cfg a))
     /\ ((exists r, serialize cfg (authenticate_ser cfg a) = Panic r) <-> ~ fits (authenticate_fields cfg a))).
Proof.
  intros cfg. split; [|split].
  - intros n H. eapply oversize_cases, negotiate_serialize, H.
  - intros c H. eapply oversize_cases, challenge_serialize, H.
  - intros a H. eapply oversize_cases, authenticate_serialize, H.
Qed.
(** What a completed encoding consists of: the message format of MS-NLMP 2.2.1 as Spec.v has it, byte
    for byte (a message without version has no room for one, see C83). *)
Lemma C22_encoding_bytes_lem : forall cfg,
  (forall n b, valid_negotiate n -> serialize cfg (negotiate_ser n) = Val b -> b = negotiate_bytes n)
  /\ (forall c b, valid_challenge c -> serialize cfg (challenge_ser cfg c) = Val b -> b = challenge_bytes cfg c)
  /\ (forall a b, valid_authenticate a -> serialize cfg (authenticate_ser cfg a) = Val b -> b = authenticate_bytes cfg a).
Proof.
  intros cfg. split; [|split].
  - intros n b H. rewrite negotiate_serialize by exact H. destruct (fitsb _); congruence.
  - intros n b H. rewrite challenge_serialize by exact H. destruct (fitsb _); congruence.
  - intros n b H. rewrite authenticate_serialize by exact H. destruct (fitsb _); congruence.
Qed.
Definition big_string : rstring := repeat 65 (N.to_nat 65536).
Example C22_ex_lem :
  valid_negotiate (mkNegotiate 1 (Some big_string) None None)
  /\ ~ fits (negotiate_fields (mkNegotiate 1 (Some big_string) None None))
  /\ serialize cfg_release (negotiate_ser (mkNegotiate 1 (Some big_string) None None)) = Panic PExpect
  /\ fits (challenge_fields cfg_debug sample_challenge).
Proof.
  split; [|split; [|split]].
  - split; [reflexivity|]. split; [|split; exact I]. unfold valid_opt, n_domain, is_string.
    unfold big_string. apply Forall_forall. intros x Hx. apply repeat_spec in Hx. subst x. reflexivity.
  - intros H. apply fitsb_fits in H. vm_compute in H. discriminate H.
  - vm_compute. reflexivity.
  - apply fitsb_fits. vm_compute. reflexivity.
Qed.

(** ** C20 *)
Definition field_at_prop (b : bytes) (start : N) (o : N) (f : option bytes) : Prop :=
  match f with
  | None => sub b o 8 = [0; 0; 0; 0; 0; 0; 0; 0]
  | Some x => field_len b o = len x /\ u16_at b (o + 2) = len x
              /\ field_off b o = start /\ field_data b o = x
  end.
Lemma byte_at_app a b i : len a <= i -> byte_at (a ++ b) i = byte_at b (i - len a).
Proof.
  intros H. unfold byte_at. rewrite app_nth2 by (unfold len in H; lia). f_equal. unfold len. lia.
Qed.
Lemma byte_at_app_l a b i : i < len a -> byte_at (a ++ b) i = byte_at a i.
Proof. intros H. unfold byte_at. apply app_nth1. unfold len in H. lia. Qed.
Lemma byte_at_add a b k : byte_at (a ++ b) (len a + k) = byte_at b k.
Proof. rewrite byte_at_app by lia. f_equal. lia. Qed.
Lemma u16_at_add a b k : u16_at (a ++ b) (len a + k) = u16_at b k.
Proof. unfold u16_at. rewrite <- N.add_assoc. now rewrite !byte_at_add. Qed.
Lemma u32_at_add a b k : u32_at (a ++ b) (len a + k) = u32_at b k.
Proof. unfold u32_at. rewrite <- N.add_assoc. now rewrite !u16_at_add. Qed.
Lemma u16_at_le16 a n r : n < 65536 -> u16_at (a ++ le16 n ++ r) (len a) = n.
Proof.
  intros H. rewrite <- (N.add_0_r (len a)), u16_at_add. unfold u16_at.
  change (byte_at (le16 n ++ r) 0) with (n mod 256).
  change (byte_at (le16 n ++ r) (0 + 1)) with (n / 256 mod 256). lia.
Qed.
Lemma u32_at_le32 a n r : n < 4294967296 -> u32_at (a ++ le32 n ++ r) (len a) = n.
Proof.
  intros H. rewrite <- (N.add_0_r (len a)), u32_at_add. unfold u32_at, u16_at.
  change (byte_at (le32 n ++ r) 0) with (n mod 256).
  change (byte_at (le32 n ++ r) (0 + 1)) with (n / 256 mod 256).
  change (byte_at (le32 n ++ r) (0 + 2)) with (n / 65536 mod 256).
  change (byte_at (le32 n ++ r) (0 + 2 + 1)) with (n / 16777216 mod 256). lia.
Qed.
(** One field: descriptor at [len a], content at [start]. *)
Lemma field_at_layout b a r pre post f start :
  b = a ++ descriptor start f ++ r -> b = pre ++ content f ++ post -> len pre = start ->
  len (content f) <= 65535 -> start < 4294967296 ->
  field_at_prop b start (len a) f.
Proof.
  intros Hd Hc Hs Hl Ho. unfold field_at_prop. destruct f as [x|]; cbn [content descriptor] in *.
  - assert (H1 : field_len b (len a) = len x).
    { unfold field_len. rewrite Hd, <- !app_assoc. apply u16_at_le16. lia. }
    assert (H3 : field_off b (len a) = start).
    { unfold field_off. rewrite Hd. rewrite <- !app_assoc. rewrite (app_assoc a), (app_assoc (a ++ _)).
      replace (len a + 4) with (len ((a ++ le16 (len x)) ++ le16 (len x))) by (rewrite !len_app, !len_le16; lia).
      now apply u32_at_le32. }
    split; [exact H1|]. split; [|split; [exact H3|]].
    + rewrite Hd. rewrite <- !app_assoc. rewrite (app_assoc a).
      replace (len a + 2) with (len (a ++ le16 (len x))) by (rewrite !len_app, !len_le16; lia).
      apply u16_at_le16. lia.
    + unfold field_data. rewrite H1, H3, Hc. now apply sub_app.
  - rewrite Hd. now apply sub_app.
Qed.
Lemma laid_out_cons b start o f r :
  field_at_prop b start o f -> laid_out b (start + len (content f)) r -> laid_out b start ((o, f) :: r).
Proof. intros H1 H2. split; assumption. Qed.

Lemma negotiate_layout n : valid_negotiate n -> fits (negotiate_fields n) ->
  laid_out (negotiate_bytes n) (32 + len (opt_version_bytes (n_version n)))
    (combine [16; 24] (negotiate_fields n)).
Proof.
  intros Hv Hfit. apply fitsb_fits in Hfit. unfold negotiate_bytes, contents. unfold negotiate_fields in *.
  cbn [fitsb forallb] in Hfit. cbn [combine descriptors concat flat_map].
  pose proof (opt_version_len_le (n_version n)) as Hvl.
  set (vb := opt_version_bytes (n_version n)) in *.
  set (f1 := opt_map utf8 (n_domain n)) in *. set (f2 := opt_map utf8 (n_workstation n)) in *.
  rewrite ?app_nil_r, <- ?app_assoc.
  set (o1 := 32 + len vb). set (o2 := o1 + len (content f1)).
  apply laid_out_cons; [|apply laid_out_cons].
  - replace 16 with (len (NTLMSSP ++ le32 1 ++ le32 (n_flags n))) by reflexivity.
    eapply field_at_layout with (pre := NTLMSSP ++ le32 1 ++ le32 (n_flags n) ++ descriptor o1 f1 ++ descriptor o2 f2 ++ vb);
      [rewrite <- ?app_assoc; reflexivity|rewrite <- ?app_assoc; reflexivity|lens; unfold o1; lia|lia|lia].
  - replace 24 with (len (NTLMSSP ++ le32 1 ++ le32 (n_flags n) ++ descriptor o1 f1))
      by (lens; reflexivity).
    eapply field_at_layout with (pre := NTLMSSP ++ le32 1 ++ le32 (n_flags n) ++ descriptor o1 f1 ++ descriptor o2 f2 ++ vb ++ content f1) (post := []);
      [rewrite <- ?app_assoc; reflexivity|rewrite <- !app_assoc, ?app_nil_r; reflexivity|lens; unfold o1; lia|lia|lia].
  - cbn [laid_out]. lens. unfold o1. lia.
Qed.
Lemma challenge_layout cfg c : valid_challenge c -> fits (challenge_fields cfg c) ->
  laid_out (challenge_bytes cfg c) (48 + len (opt_version_bytes (ch_version c)))
    (combine [12; 40] (challenge_fields cfg c)).
Proof.
  intros (_ & _ & Hsc & _) Hfit. apply fitsb_fits in Hfit. unfold challenge_bytes, contents. unfold challenge_fields in *.
  cbn [fitsb forallb] in Hfit. cbn [combine descriptors nth flat_map].
  pose proof (opt_version_len_le (ch_version c)) as Hvl.
  pose proof (len_buffer _ _ Hsc) as Hscl.
  set (vb := opt_version_bytes (ch_version c)) in *.
  set (f1 := opt_map utf16le (ch_target_name c)) in *. set (f2 := av_list_field cfg (ch_target_infos c)) in *.
  rewrite ?app_nil_r, <- ?app_assoc.
  set (o1 := 48 + len vb). set (o2 := o1 + len (content f1)).
  set (mid := le32 (ch_flags c) ++ ch_server_challenge c ++ [0; 0; 0; 0; 0; 0; 0; 0]).
  assert (Hmid : len mid = 20) by (unfold mid; lens; rewrite Hscl; reflexivity).
  match goal with |- laid_out ?x _ _ => replace x with
    (NTLMSSP ++ le32 2 ++ descriptor o1 f1 ++ mid ++ descriptor o2 f2 ++ vb ++ content f1 ++ content f2)
    by (unfold mid; rewrite <- ?app_assoc; reflexivity) end.
  apply laid_out_cons; [|apply laid_out_cons].
  - replace 12 with (len (NTLMSSP ++ le32 2)) by reflexivity.
    eapply field_at_layout with (pre := NTLMSSP ++ le32 2 ++ descriptor o1 f1 ++ mid ++ descriptor o2 f2 ++ vb);
      [rewrite <- ?app_assoc; reflexivity|rewrite <- ?app_assoc; reflexivity|lens; unfold o1; lia|lia|lia].
  - replace 40 with (len (NTLMSSP ++ le32 2 ++ descriptor o1 f1 ++ mid))
      by (lens; rewrite Hmid; reflexivity).
    eapply field_at_layout with (pre := NTLMSSP ++ le32 2 ++ descriptor o1 f1 ++ mid ++ descriptor o2 f2 ++ vb ++ content f1) (post := []);
      [rewrite <- ?app_assoc; reflexivity|rewrite <- !app_assoc, ?app_nil_r; reflexivity|lens; unfold o1; lia|lia|lia].
  - cbn [laid_out]. lens. unfold o1. lia.
Qed.
Lemma authenticate_layout cfg a : valid_authenticate a -> fits (authenticate_fields cfg a) ->
  laid_out (authenticate_bytes cfg a) (80 + len (opt_version_bytes (a_version a)))
    (combine [12; 20; 28; 36; 44; 52] (authenticate_fields cfg a)).
Proof.
  intros Hv Hfit. assert (Hmic : is_buffer 16 (a_mic a)) by (unfold valid_authenticate in Hv; tauto).
  apply fitsb_fits in Hfit. unfold authenticate_bytes, contents. unfold authenticate_fields in *.
  cbn [fitsb forallb] in Hfit. cbn [combine descriptors concat flat_map].
  pose proof (opt_version_len_le (a_version a)) as Hvl.
  pose proof (len_buffer _ _ Hmic) as Hml.
  set (vb := opt_version_bytes (a_version a)) in *.
  set (f1 := opt_map lm_bytes (a_lm a)) in *. set (f2 := opt_map (nt_bytes cfg) (a_nt a)) in *.
  set (f3 := opt_map utf16le (a_domain a)) in *. set (f4 := opt_map utf16le (a_user a)) in *.
  set (f5 := opt_map utf16le (a_workstation a)) in *. set (f6 := a_session_key a) in *.
  rewrite ?app_nil_r, <- ?app_assoc.
  replace (80 + len vb) with (64 + len vb + len (a_mic a)) by (rewrite Hml; lia).
  set (o1 := 64 + len vb + len (a_mic a)). set (o2 := o1 + len (content f1)).
  set (o3 := o2 + len (content f2)). set (o4 := o3 + len (content f3)).
  set (o5 := o4 + len (content f4)). set (o6 := o5 + len (content f5)).
  set (hdr := NTLMSSP ++ le32 3 ++ descriptor o1 f1 ++ descriptor o2 f2 ++ descriptor o3 f3
       ++ descriptor o4 f4 ++ descriptor o5 f5 ++ descriptor o6 f6 ++ le32 (a_flags a) ++ vb ++ a_mic a).
  assert (Hhdr : len hdr = o1) by (unfold hdr, o1; lens; lia).
  set (d0 := NTLMSSP ++ le32 3).
  match goal with |- laid_out ?x _ _ => set (b := x) end.
  assert (Hb : b = hdr ++ content f1 ++ content f2 ++ content f3 ++ content f4 ++ content f5 ++ content f6).
  { unfold b, hdr. rewrite <- !app_assoc. reflexivity. }
  apply laid_out_cons; [|fold o2; apply laid_out_cons; [|fold o3; apply laid_out_cons; [|fold o4; apply laid_out_cons; [|fold o5; apply laid_out_cons; [|fold o6; apply laid_out_cons]]]]].
  - replace 12 with (len d0) by reflexivity.
    eapply field_at_layout with (pre := hdr);
      [unfold b, d0; rewrite <- ?app_assoc; reflexivity|exact Hb|exact Hhdr|lia|unfold o1; lia].
  - replace 20 with (len (d0 ++ descriptor o1 f1)) by (lens; reflexivity).
    eapply field_at_layout with (pre := hdr ++ content f1);
      [unfold b, d0; rewrite <- ?app_assoc; reflexivity|rewrite Hb, <- !app_assoc; reflexivity|lens; unfold o2; lia|lia|unfold o2, o1; lia].
  - replace 28 with (len (d0 ++ descriptor o1 f1 ++ descriptor o2 f2)) by (lens; reflexivity).
    eapply field_at_layout with (pre := hdr ++ content f1 ++ content f2);
      [unfold b, d0; rewrite <- ?app_assoc; reflexivity|rewrite Hb, <- !app_assoc; reflexivity|lens; unfold o3, o2; lia|lia|unfold o3, o2, o1; lia].
  - replace 36 with (len (d0 ++ descriptor o1 f1 ++ descriptor o2 f2 ++ descriptor o3 f3)) by (lens; reflexivity).
    eapply field_at_layout with (pre := hdr ++ content f1 ++ content f2 ++ content f3);
      [unfold b, d0; rewrite <- ?app_assoc; reflexivity|rewrite Hb, <- !app_assoc; reflexivity|lens; unfold o4, o3, o2; lia|lia|unfold o4, o3, o2, o1; lia].
  - replace 44 with (len (d0 ++ descriptor o1 f1 ++ descriptor o2 f2 ++ descriptor o3 f3 ++ descriptor o4 f4)) by (lens; reflexivity).
    eapply field_at_layout with (pre := hdr ++ content f1 ++ content f2 ++ content f3 ++ content f4);
      [unfold b, d0; rewrite <- ?app_assoc; reflexivity|rewrite Hb, <- !app_assoc; reflexivity|lens; unfold o5, o4, o3, o2; lia|lia|unfold o5, o4, o3, o2, o1; lia].
  - replace 52 with (len (d0 ++ descriptor o1 f1 ++ descriptor o2 f2 ++ descriptor o3 f3 ++ descriptor o4 f4 ++ descriptor o5 f5)) by (lens; reflexivity).
    eapply field_at_layout with (pre := hdr ++ content f1 ++ content f2 ++ content f3 ++ content f4 ++ content f5) (post := []);
      [unfold b, d0; rewrite <- ?app_assoc; reflexivity|rewrite Hb, <- !app_assoc, app_nil_r; reflexivity|lens; unfold o6, o5, o4, o3, o2; lia|lia|unfold o6, o5, o4, o3, o2, o1; lia].
  - cbn [laid_out]. rewrite Hb. lens. unfold o6, o5, o4, o3, o2. lia.
Qed.

(** Every encoded message: absent fields have the zero descriptor; the present
    ones follow each other without gap from the end of the fixed part (plus
    version and MIC) to the end of the message, and their descriptors say so. *)
Lemma C20_field_layout_lem : forall cfg,
  (forall n b, valid_negotiate n -> serialize cfg (negotiate_ser n) = Val b ->
     laid_out b (match n_version n with Some _ => 40 | None => 32 end)
       [(16, opt_map utf8 (n_domain n)); (24, opt_map utf8 (n_workstation n))])
  /\ (forall c b, valid_challenge c -> serialize cfg (challenge_ser cfg c) = Val b ->
     laid_out b (match ch_version c with Some _ => 56 | None => 48 end)
       [(12, opt_map utf16le (ch_target_name c)); (40, av_list_field cfg (ch_target_infos c))])
  /\ (forall a b, valid_authenticate a -> serialize cfg (authenticate_ser cfg a) = Val b ->
     laid_out b (match a_version a with Some _ => 88 | None => 80 end)
       [(12, opt_map lm_bytes (a_lm a)); (20, opt_map (nt_bytes cfg) (a_nt a));
        (28, opt_map utf16le (a_domain a)); (36, opt_map utf16le (a_user a));
        (44, opt_map utf16le (a_workstation a)); (52, a_session_key a)]).
Proof.
  intros cfg. split; [|split].
  - intros n b Hv. rewrite negotiate_serialize by exact Hv.
    destruct (fitsb _) eqn:E; [|discriminate]. intros H; injection H as <-. apply fitsb_fits in E.
    pose proof (negotiate_layout n Hv E) as HL. cbn [combine negotiate_fields] in HL.
    destruct (n_version n); exact HL.
  - intros n b Hv. rewrite challenge_serialize by exact Hv.
    destruct (fitsb _) eqn:E; [|discriminate]. intros H; injection H as <-. apply fitsb_fits in E.
    pose proof (challenge_layout cfg n Hv E) as HL. cbn [combine challenge_fields] in HL.
    destruct (ch_version n); exact HL.
  - intros n b Hv. rewrite authenticate_serialize by exact Hv.
    destruct (fitsb _) eqn:E; [|discriminate]. intros H; injection H as <-. apply fitsb_fits in E.
    pose proof (authenticate_layout cfg n Hv E) as HL. cbn [combine authenticate_fields] in HL.
    destruct (a_version n); exact HL.
Qed.
Example C20_ex_lem : exists b, serialize cfg_debug (authenticate_ser cfg_debug sample_authenticate) = Val b
  /\ field_off b 28 = 262 /\ field_data b 28 = utf16le str_Domain.
Proof. eexists. split; [vm_compute; reflexivity|]. split; vm_compute; reflexivity. Qed.

(** ** C02, C03, C04 *)
Lemma C02_negotiate_round_trip_lem : forall cfg n, valid_negotiate n -> carried_negotiate n ->
  exists b, serialize cfg (negotiate_ser n) = Val b /\ negotiate_de cfg b = POk [] n.
Proof.
  intros cfg n Hv Hc. exists (negotiate_bytes n). rewrite negotiate_serialize by exact Hv.
  split.
  - destruct Hc as [Hf _]. apply fitsb_fits in Hf. now rewrite Hf.
  - rewrite <- (app_nil_r (negotiate_bytes n)). now apply negotiate_round_trip.
Qed.
Example C02_ex_lem : valid_negotiate sample_negotiate /\ carried_negotiate sample_negotiate.
Proof. exact sample_negotiate_ok. Qed.
Lemma C03_challenge_round_trip_lem : forall cfg c, host_le cfg = true ->
  valid_challenge c -> carried_challenge cfg c ->
  exists b, serialize cfg (challenge_ser cfg c) = Val b /\ challenge_de cfg b = POk [] c.
Proof.
  intros cfg c Hle Hv Hc. exists (challenge_bytes cfg c). rewrite challenge_serialize by exact Hv.
  split.
  - destruct Hc as [Hf _]. apply fitsb_fits in Hf. now rewrite Hf.
  - rewrite <- (app_nil_r (challenge_bytes cfg c)). now apply challenge_round_trip.
Qed.
Example C03_ex_lem : host_le cfg_debug = true
  /\ valid_challenge sample_challenge /\ carried_challenge cfg_debug sample_challenge.
Proof. split; [reflexivity|exact sample_challenge_ok]. Qed.
(** The exported session key is never on the wire. *)
Lemma C04_authenticate_round_trip_lem : forall cfg a, host_le cfg = true ->
  valid_authenticate a -> carried_authenticate cfg a ->
  exists b, serialize cfg (authenticate_ser cfg a) = Val b
            /\ authenticate_de cfg b = POk [] (with_exported_key a None).
Proof.
  intros cfg a Hle Hv Hc. exists (authenticate_bytes cfg a). rewrite authenticate_serialize by exact Hv.
  split.
  - destruct Hc as [Hf _]. apply fitsb_fits in Hf. now rewrite Hf.
  - rewrite <- (app_nil_r (authenticate_bytes cfg a)). now apply authenticate_round_trip.
Qed.
Example C04_ex_lem : host_le cfg_debug = true
  /\ valid_authenticate sample_authenticate /\ carried_authenticate cfg_debug sample_authenticate.
Proof. split; [reflexivity|exact sample_authenticate_ok]. Qed.

(** ** C05 *)
(** [tail]: bytes that cannot start an AV pair (too few, or an unknown identifier). *)
Lemma C05_av_list_round_trip_lem : forall cfg l tail, host_le cfg = true ->
  Forall valid_av_pair l -> Forall (carried_av cfg) l ->
  Forall (fun a => len (av_value cfg a) <= 65535) l ->
  len tail < 4 \/ 10 < u16_at tail 0 ->
  exists b, serialize cfg (ser_vec (av_pair_ser cfg) l) = Val b
            /\ many0 (av_pair_de cfg) (b ++ tail) = POk tail l.
Proof.
  intros cfg l tail Hle Hv Hc Hl Ht. exists (av_list_bytes cfg l). split.
  - assert (E : av_strings_fit cfg l = true).
    { unfold av_strings_fit. apply forallb_forall. rewrite Forall_forall in Hl.
      intros x Hx. specialize (Hl x Hx). lia. }
    rewrite (serialize_spec cfg _ (av_list_bytes cfg l) (av_strings_fit cfg l)) by (apply av_vec_spec, Hv).
    now rewrite E.
  - apply av_list_de_ok; auto. unfold len in Ht. lia.
Qed.
Example C05_ex_lem : Forall valid_av_pair sample_infos /\ Forall (carried_av cfg_debug) sample_infos
  /\ Forall (fun a => len (av_value cfg_debug a) <= 65535) sample_infos
  /\ 10 < u16_at [11; 0; 0; 0; 1] 0.
Proof. closed_valid. Qed.

(** ** C06 *)
Lemma drop_app a b k : len a = k -> drop k (a ++ b) = b.
Proof. intros <-. unfold drop. rewrite len_nat. now apply skipn_app_exact. Qed.
Lemma version_de_revision v r : valid_version v -> v_revision v <> 15 ->
  version_de (version_bytes v ++ r) = PErr EError.
Proof.
  intros (H1 & H2 & H3 & H4) Hr. rewrite <- (drop_0 (version_bytes v ++ r)), version_de_at.
  replace (version_ok (version_bytes v ++ r) 0) with false; [reflexivity|].
  unfold version_ok. change (byte_at (version_bytes v ++ r) (0 + 7)) with (v_revision v mod 256).
  rewrite N.mod_small by exact H4.
  replace (v_revision v =? 15) with false by lia. now rewrite andb_false_r.
Qed.
Lemma single_host_z4 h r : valid_single_host h -> sh_z4 h <> 0 ->
  single_host_de (single_host_bytes h ++ r) = PErr EError.
Proof.
  intros (H1 & H2 & H3 & H4) Hz. rewrite <- (drop_0 (single_host_bytes h ++ r)), single_host_de_at.
  replace (u32_at (single_host_bytes h ++ r) (0 + 4)) with (sh_z4 h).
  - replace (sh_z4 h =? 0) with false by lia. now rewrite andb_false_r.
  - unfold single_host_bytes. rewrite <- !app_assoc. change (0 + 4) with (len (le32 (sh_size h))).
    symmetry. now apply u32_at_le32.
Qed.
(** Each structure writes its fixed number of bytes and decodes back from them, whatever follows. *)
Lemma C06_fixed_round_trips_lem : forall cfg rest,
  (forall v, valid_version v -> exists b, serialize cfg (version_ser v) = Val b /\ len b = 8
     /\ version_de (b ++ rest) = if v_revision v =? 15 then POk rest v else PErr EError)
  /\ (forall t, valid_filetime t -> exists b, serialize cfg (filetime_ser t) = Val b /\ len b = 8
     /\ (decodable_time cfg t -> filetime_de cfg (b ++ rest) = POk rest t))
  /\ (forall f, exists b, serialize cfg (av_flags_ser f) = Val b /\ len b = 4
     /\ av_flags_de (b ++ rest) = POk rest f)
  /\ (forall h, valid_single_host h -> exists b, serialize cfg (single_host_ser h) = Val b /\ len b = 48
     /\ single_host_de (b ++ rest) = if sh_z4 h =? 0 then POk rest h else PErr EError)
  /\ (forall s, is_buffer 4 (sg_pad s) -> is_u32 (sg_checksum s) -> is_u32 (sg_seq s) ->
     exists b, serialize cfg (signature_ser s) = Val b /\ len b = 16 /\ signature_de (b ++ rest) = POk rest s)
  /\ (forall f, is_u32 f -> exists b, serialize cfg (flags_ser f) = Val b /\ len b = 4
     /\ flags_de cfg (b ++ rest) = POk rest f)
  /\ (forall n x, is_buffer n x -> exists b, serialize cfg (buf_ser n x) = Val b /\ len b = N.of_nat n
     /\ buf_de n (b ++ rest) = POk rest x).
Proof.
  intros cfg rest. repeat match goal with |- _ /\ _ => split end.
  - intros v Hv. eexists. split; [apply writes_serialize, writes_version|]. split; [reflexivity|].
    destruct (v_revision v =? 15) eqn:E.
    + apply version_de_ok; [exact Hv|lia].
    + apply version_de_revision; [exact Hv|lia].
  - intros t Ht. eexists. split; [apply writes_serialize, writes_filetime|]. split; [reflexivity|].
    intros Hd. now apply filetime_de_ok.
  - intros f. eexists. split; [apply writes_serialize, writes_u32|]. split; [reflexivity|].
    rewrite av_flags_word_spec. apply av_flags_de_ok.
  - intros h Hh. eexists. split; [apply writes_serialize, writes_single_host|]. split.
    + destruct Hh as (_ & _ & H3 & H4). unfold single_host_bytes. lens.
      rewrite (len_buffer _ _ H3), (len_buffer _ _ H4). reflexivity.
    + destruct (sh_z4 h =? 0) eqn:E.
      * apply single_host_de_ok; [exact Hh|lia].
      * apply single_host_z4; [exact Hh|lia].
  - intros s H1 H2 H3. eexists. split; [apply writes_serialize, writes_signature, H1|]. split.
    + lens. rewrite (len_buffer _ _ H1). reflexivity.
    + now apply signature_de_ok.
  - intros f Hf. eexists. split; [apply writes_serialize, writes_flags|]. split; [reflexivity|].
    now apply flags_de_ok.
  - intros n x Hx. eexists. split; [apply writes_serialize, writes_buf, Hx|].
    split; [now apply len_buffer|]. apply take_ok, Hx.
Qed.
Example C06_ex_lem : valid_version sample_version /\ valid_filetime (mkFileTime 4294967295 4294967295)
  /\ decodable_time cfg_debug (mkFileTime 4294967295 4294967295)
  /\ valid_single_host (mkSingleHost 48 0 (repeat 1 8) (repeat 2 32))
  /\ valid_version (mkVersion 1 2 3 14).
Proof. closed_valid. Qed.

(** ** C11 *)
(** The UTF-16 decoder never fails; what it returns is the longest prefix it can carry. *)
Lemma C11_utf16_longest_prefix_lem : forall cfg s, is_string s ->
  exists b, serialize cfg (unicode_ser s) = Val b /\ b = utf16le s
            /\ unicode_de b = POk (utf16le (skipn (length (plain_prefix s)) s)) (plain_prefix s).
Proof.
  intros cfg s Hs. eexists. split; [apply writes_serialize, writes_unicode|]. split; [reflexivity|].
  now apply unicode_de_prefix.
Qed.
Example C11_utf16_longest_prefix_ex_lem : is_string str_emoji /\ plain_prefix str_emoji = [65].
Proof. split; [repeat constructor|reflexivity]. Qed.
(** Strings of non-NUL BMP characters round trip. *)
Lemma C11_utf16_plain_round_trip_lem : forall cfg s, plain_string s ->
  exists b, serialize cfg (unicode_ser s) = Val b /\ unicode_de b = POk [] s.
Proof.
  intros cfg s Hs. eexists. split; [apply writes_serialize, writes_unicode|]. now apply unicode_de_plain.
Qed.
Example C11_utf16_plain_round_trip_ex_lem : plain_string str_accent.
Proof. split; [repeat constructor|reflexivity]. Qed.
(** On arbitrary bytes decoding succeeds, with a string of non-NUL BMP characters whose encoding
    starts the input, and it stops only where the next unit is missing, NUL or a surrogate. *)
Lemma read_utf16_stop b : let r := snd (read_utf16 b) in
  len r < 2 \/ u16_at r 0 = 0 \/ (55296 <= u16_at r 0 /\ u16_at r 0 <= 57343).
Proof.
  enough (H : forall n b, (length b <= n)%nat -> let r := snd (read_utf16 b) in
    len r < 2 \/ u16_at r 0 = 0 \/ (55296 <= u16_at r 0 /\ u16_at r 0 <= 57343)) by (eapply H; reflexivity).
  clear b. induction n as [|n IH]; intros b Hn.
  - destruct b; [left; reflexivity|cbn in Hn; lia].
  - destruct b as [|x [|y r]]; [left; reflexivity..|]. cbn [read_utf16].
    destruct ((x + 256 * y =? 0) || surrogate (x + 256 * y)) eqn:E.
    + cbn [snd]. right. change (u16_at (x :: y :: r) 0) with (x + 256 * y). unfold surrogate in E. lia.
    + cbn [length] in Hn. specialize (IH r ltac:(lia)). destruct (read_utf16 r). exact IH.
Qed.
Lemma C11_utf16_decode_total_lem : forall b, is_bytes b ->
  exists s rest, unicode_de b = POk rest s /\ plain_string s /\ b = utf16le s ++ rest
    /\ (len rest < 2 \/ u16_at rest 0 = 0 \/ (55296 <= u16_at rest 0 /\ u16_at rest 0 <= 57343)).
Proof.
  intros b Hb. exists (fst (read_utf16 b)), (snd (read_utf16 b)).
  destruct (read_utf16_inv b Hb) as [H1 H2].
  split; [apply unicode_de_spec|]. split; [exact H1|]. split; [exact H2|]. apply read_utf16_stop.
Qed.
Example C11_utf16_decode_total_ex_lem : is_bytes [65; 0; 61; 216; 0; 222; 66; 0]
  /\ unicode_de [65; 0; 61; 216; 0; 222; 66; 0] = POk [61; 216; 0; 222; 66; 0] [65].
Proof. split; [repeat constructor|reflexivity]. Qed.
(** The full round trip is false: text is lost silently at the first NUL or non-BMP character. *)
Lemma C11_utf16_round_trip_refuted_lem :
  ~ (forall cfg s b, is_string s -> serialize cfg (unicode_ser s) = Val b ->
       exists rest, unicode_de b = POk rest s).
Proof.
  intros H. destruct (H cfg_release str_emoji (utf16le str_emoji)) as [rest Hr].
  - repeat constructor.
  - reflexivity.
  - vm_compute in Hr. discriminate Hr.
Qed.

(** ** C12 *)
Lemma C12_oem_is_utf8_lem : forall b,
  (forall s rest, oem_de b = POk rest s <-> rest = [] /\ is_string s /\ utf8 s = b)
  /\ ((forall s, is_string s -> utf8 s <> b) -> oem_de b = PErr EError)
  /\ (forall cfg s, is_string s -> exists e, serialize cfg (oem_ser s) = Val e /\ e = utf8 s /\ oem_de e = POk [] s).
Proof.
  intros b. split; [|split].
  - intros s rest. rewrite oem_de_spec. split.
    + destruct (from_utf8 b) as [s'|] eqn:E; [|discriminate]. intros H; injection H as <- <-.
      apply from_utf8_inv in E. tauto.
    + intros (-> & Hs & <-). now rewrite from_utf8_ok.
  - intros H. rewrite oem_de_spec. destruct (from_utf8 b) as [s|] eqn:E; [|reflexivity].
    apply from_utf8_inv in E as [E1 E2]. now apply H in E2.
  - intros cfg s Hs. exists (utf8 s). split; [apply writes_serialize, writes_oem|].
    split; [reflexivity|]. now apply oem_de_ok.
Qed.
Example C12_ex_lem : is_string str_emoji /\ utf8 str_emoji = [65; 240; 159; 152; 128; 66]
  /\ oem_de [237; 160; 128] = PErr EError /\ oem_de [192; 128] = PErr EError.
Proof. split; [repeat constructor|]. repeat split; reflexivity. Qed.
