(** The serialisers write the specified encodings, or panic when a field is too long. *)
From Coq Require Import ZifyBool ZifyNat ZifyN.
From Verif Require Import Base Nom Unicode Wire Structures Messages Spec Lib.

Ltac Zify.zify_post_hook ::= Z.div_mod_to_equations.
Arguments N.add : simpl never.
Arguments N.mul : simpl never.
Arguments N.sub : simpl never.
Arguments N.div : simpl never.
Arguments N.modulo : simpl never.

(** ** Strings *)
Lemma encode_utf16_le s : flat_map le16 (encode_utf16 s) = utf16le s.
Proof.
  induction s as [|c s IH]; [reflexivity|].
  unfold encode_utf16, utf16le in *. cbn [flat_map]. rewrite flat_map_app, IH.
  f_equal. unfold utf16_char, utf16le_char. destruct (c <? 65536); cbn [flat_map];
    now rewrite ?app_nil_r.
Qed.
Lemma writes_unicode s : writes (unicode_ser s) (utf16le s).
Proof. rewrite <- encode_utf16_le. apply writes_vec. intros x _. apply writes_u16. Qed.
Lemma writes_oem s : writes (oem_ser s) (utf8 s).
Proof. intros w. reflexivity. Qed.

Lemma u16s_le cfg us : host_le cfg = true -> u16s_as_bytes cfg us = flat_map le16 us.
Proof.
  intros H. unfold u16s_as_bytes. apply flat_map_ext. intros u. unfold u16_native. now rewrite H.
Qed.
Lemma swap_pairs_le us : swap_pairs (flat_map le16 us) = flat_map (fun u => rev (le16 u)) us.
Proof. induction us as [|u us IH]; [reflexivity|]. cbn [flat_map le16 app swap_pairs rev]. now rewrite IH. Qed.
Lemma u16s_host cfg s : u16s_as_bytes cfg (encode_utf16 s) = utf16_host cfg s.
Proof.
  unfold utf16_host, utf16be. rewrite <- encode_utf16_le.
  destruct (host_le cfg) eqn:E.
  - now apply u16s_le.
  - rewrite swap_pairs_le. unfold u16s_as_bytes. apply flat_map_ext. intros u.
    unfold u16_native. now rewrite E.
Qed.

(** ** Fixed-size structures *)
Lemma writes_flags f : writes (flags_ser f) (le32 f).
Proof. apply writes_u32. Qed.
Lemma writes_field f :
  writes (field_ser f) (le16 (f_len f) ++ le16 (f_max_len f) ++ le32 (f_offset f)).
Proof. unfold field_ser. repeat apply writes_seqw; auto using writes_u16, writes_u32. Qed.
Lemma writes_version v : writes (version_ser v) (version_bytes v).
Proof.
  unfold version_ser, version_bytes.
  change ([v_major v mod 256; v_minor v mod 256] ++ le16 (v_build v) ++ [0; 0; 0; v_revision v mod 256])
    with ([v_major v mod 256] ++ [v_minor v mod 256] ++ le16 (v_build v) ++ [0 mod 256] ++ le16 0 ++ [v_revision v mod 256]).
  repeat apply writes_seqw; auto using writes_u8, writes_u16.
Qed.
Lemma writes_filetime t : writes (filetime_ser t) (filetime_bytes t).
Proof. unfold filetime_ser. apply writes_seqw; apply writes_u32. Qed.
Lemma writes_single_host h : writes (single_host_ser h) (single_host_bytes h).
Proof.
  unfold single_host_ser, single_host_bytes.
  repeat apply writes_seqw; auto using writes_u32, writes_raww.
Qed.
Lemma writes_signature s : length (sg_pad s) = 4%nat ->
  writes (signature_ser s) (le32 1 ++ sg_pad s ++ le32 (sg_checksum s) ++ le32 (sg_seq s)).
Proof.
  intros H. unfold signature_ser. repeat apply writes_seqw; auto using writes_u32, writes_buf.
Qed.
Lemma writes_lm c : valid_lm c -> writes (lm_challenge_ser c) (lm_bytes c).
Proof.
  destruct c as [r|r cc]; cbn; unfold is_buffer.
  - intros [H _]. now apply writes_buf.
  - intros [[H1 _] [H2 _]]. apply writes_seqw; now apply writes_buf.
Qed.

(** ** AV pairs *)
Lemma utf16le_len_even s : exists k, length (utf16le s) = (2 * k)%nat.
Proof.
  rewrite <- encode_utf16_le. induction (encode_utf16 s) as [|u us [k IH]]; [now exists 0%nat|].
  exists (S k). cbn [flat_map]. rewrite app_length, IH, le16_length. lia.
Qed.
Lemma swap_pairs_length b : length (swap_pairs b) = length b.
Proof.
  enough (forall n b, (length b <= n)%nat -> length (swap_pairs b) = length b) by eauto.
  clear b. induction n as [|n IH]; intros b H.
  - destruct b; [reflexivity|cbn in H; lia].
  - destruct b as [|x [|y r]]; [reflexivity..|]. cbn [swap_pairs length] in *. rewrite IH; lia.
Qed.
Lemma utf16_host_len cfg s : len (utf16_host cfg s) = len (utf16le s).
Proof.
  unfold utf16_host, utf16be. destruct (host_le cfg); [reflexivity|].
  unfold len. now rewrite swap_pairs_length.
Qed.

Lemma encode_string_ok cfg s : len (utf16_host cfg s) <= 65535 ->
  writes (encode_string cfg s) (le16 (len (utf16_host cfg s)) ++ utf16_host cfg s).
Proof.
  intros H w. unfold encode_string. rewrite u16s_host. unfold to_u16.
  destruct (len (utf16_host cfg s) <? 65536) eqn:E; [|lia]. cbn [obind].
  rewrite writes_u16. cbn [obind]. unfold write_all.
  now rewrite len_app, app_assoc.
Qed.
Lemma encode_string_panics cfg s : 65535 < len (utf16_host cfg s) -> expect_panics (encode_string cfg s).
Proof.
  intros H w. unfold encode_string. rewrite u16s_host. unfold to_u16.
  destruct (len (utf16_host cfg s) <? 65536) eqn:E; [lia|]. reflexivity.
Qed.

Lemma av_code_id a : av_id_code (get_id a) = av_code a.
Proof. destruct a; reflexivity. Qed.

Lemma av_flags_word_spec f :
  av_flags_word f = bit (avf_constrained f) + 2 * bit (avf_mic f) + 4 * bit (avf_untrusted_spn f).
Proof. destruct f as [[|] [|] [|]]; reflexivity. Qed.

Lemma av_value_fixed_len cfg a : valid_av_pair a ->
  match a with
  | AvEOL => len (av_value cfg a) = 0
  | AvFlags _ => len (av_value cfg a) = 4
  | AvTimestamp _ => len (av_value cfg a) = 8
  | AvSingleHost _ => len (av_value cfg a) = 48
  | AvChannelBindings _ => len (av_value cfg a) = 16
  | _ => True
  end.
Proof.
  destruct a; cbn [av_value valid_av_pair]; trivial; try reflexivity.
  - intros (_ & _ & [H1 _] & [H2 _]). unfold single_host_bytes, len.
    rewrite !app_length, !le32_length, H1, H2. reflexivity.
  - intros [H _]. unfold len. now rewrite H.
Qed.

Lemma writes_av cfg a : valid_av_pair a -> len (av_value cfg a) <= 65535 ->
  writes (av_pair_ser cfg a) (av_bytes cfg a).
Proof.
  intros Hv Hl. pose proof (av_value_fixed_len cfg a Hv) as Hf.
  unfold av_pair_ser, av_bytes. apply writes_seqw.
  - unfold av_id_ser. rewrite av_code_id. apply writes_u16.
  - destruct a; cbn [av_value] in *; try (apply encode_string_ok; exact Hl).
    + rewrite app_nil_r. apply writes_u16.
    + rewrite Hf. apply writes_seqw; [apply writes_u16|].
      unfold av_flags_ser. rewrite av_flags_word_spec. apply writes_u32.
    + rewrite Hf. apply writes_seqw; [apply writes_u16|apply writes_filetime].
    + rewrite Hf. apply writes_seqw; [apply writes_u16|apply writes_single_host].
    + apply writes_seqw; [apply writes_u16|now apply writes_raww].
Qed.
Lemma panics_av cfg a : valid_av_pair a -> 65535 < len (av_value cfg a) ->
  expect_panics (av_pair_ser cfg a).
Proof.
  intros Hv Hl. pose proof (av_value_fixed_len cfg a Hv) as Hf.
  unfold av_pair_ser. eapply expect_seqw_r; [apply writes_u16|].
  destruct a; cbn [av_value] in *; try (apply encode_string_panics; exact Hl);
    try (exfalso; lia); cbn in Hl; try (exfalso; lia).
Qed.

Definition av_strings_fit (cfg : config) (l : list av_pair) : bool :=
  forallb (fun a => len (av_value cfg a) <=? 65535) l.

Lemma av_vec_spec cfg l w : Forall valid_av_pair l ->
  ser_vec (av_pair_ser cfg) l w =
    if av_strings_fit cfg l then Val (len (av_list_bytes cfg l), w ++ av_list_bytes cfg l)
    else Panic PExpect.
Proof.
  intros H. revert w. induction H as [|a l Ha Hl IH]; intros w.
  - cbn. now rewrite app_nil_r.
  - cbn [ser_vec av_strings_fit forallb av_list_bytes flat_map].
    destruct (len (av_value cfg a) <=? 65535) eqn:E; cbn [andb].
    + rewrite writes_av by (auto; lia). cbn [obind]. rewrite IH.
      fold (av_strings_fit cfg l). destruct (av_strings_fit cfg l); [|reflexivity].
      cbn [obind]. fold (av_list_bytes cfg l). now rewrite len_app, app_assoc.
    + rewrite panics_av by (auto; lia). reflexivity.
Qed.
Lemma av_bytes_len cfg a : len (av_bytes cfg a) = 4 + len (av_value cfg a).
Proof. unfold av_bytes. rewrite !len_app, !len_le16. lia. Qed.
Lemma av_strings_fit_total cfg l : av_strings_fit cfg l = false -> 65535 < len (av_list_bytes cfg l).
Proof.
  induction l as [|a l IH]; [discriminate|].
  cbn [av_strings_fit forallb av_list_bytes flat_map].
  rewrite len_app, av_bytes_len. fold (av_strings_fit cfg l). fold (av_list_bytes cfg l).
  destruct (len (av_value cfg a) <=? 65535) eqn:E; cbn [andb]; intros H; [apply IH in H|]; lia.
Qed.

(** ** NTLMv2 responses *)
Lemma nt_spec cfg c w : valid_nt c ->
  nt_challenge_ser cfg c w =
    if match c with NtV1 _ => true | NtV2 c => av_strings_fit cfg (nt_target_infos c) end
    then Val (len (nt_bytes cfg c), w ++ nt_bytes cfg c)
    else Panic PExpect.
Proof.
  destruct c as [r|c]; cbn [valid_nt nt_challenge_ser nt_bytes].
  - intros [H _]. now apply writes_buf.
  - intros (Ht & [Hc _] & Ha). unfold ntv2_ser.
    set (h := write_u8 1 +++ _).
    assert (Hh : writes h ([1; 1; 0; 0; 0; 0; 0; 0] ++ filetime_bytes (nt_timestamp c)
                           ++ nt_client_challenge c ++ [0; 0; 0; 0])).
    { unfold h. change [1; 1; 0; 0; 0; 0; 0; 0] with ([1 mod 256] ++ [1 mod 256] ++ le16 0 ++ le32 0).
      rewrite <- !app_assoc. change [0; 0; 0; 0] with (le32 0).
      repeat apply writes_seqw; auto using writes_u8, writes_u16, writes_u32, writes_filetime, writes_buf. }
    rewrite Hh. cbn [obind].
    assert (Hs : len ([1; 1; 0; 0; 0; 0; 0; 0] ++ filetime_bytes (nt_timestamp c)
                           ++ nt_client_challenge c ++ [0; 0; 0; 0]) = 28).
    { unfold len. rewrite !app_length. rewrite Hc. reflexivity. }
    rewrite Hs. cbn [N.eqb Pos.eqb negb]. rewrite andb_false_r.
    rewrite av_vec_spec by exact Ha.
    destruct (av_strings_fit cfg (nt_target_infos c)); [|reflexivity].
    cbn [obind]. unfold ntv2_bytes.
    f_equal. f_equal.
    + rewrite <- Hs. rewrite <- len_app. f_equal. now rewrite <- !app_assoc.
    + now rewrite <- !app_assoc.
Qed.

(** ** Field descriptors *)

(** A field value that writes [b], or panics: [append] of it. *)
Lemma append_some s b data w :
  writes s b -> len data < 4294967296 -> len b <= 65535 ->
  append (Some s) data w
  = Val (8, data ++ b, w ++ descriptor (len data) (Some b)).
Proof.
  intros Hs Hd Hb. unfold append, to_u32.
  destruct (len data <? 4294967296) eqn:E; [|lia]. cbn [obind].
  rewrite Hs. cbn [obind]. unfold to_u16. destruct (len b <? 65536) eqn:E2; [|lia].
  cbn [obind]. rewrite writes_field. cbn [obind f_len f_max_len f_offset]. reflexivity.
Qed.
Lemma append_none data w :
  append None data w = Val (8, data, w ++ descriptor (len data) None).
Proof. unfold append. cbn [obind]. rewrite writes_field. reflexivity. Qed.
Lemma append_big s b data w :
  writes s b -> len data < 4294967296 -> 65535 < len b -> append (Some s) data w = Panic PExpect.
Proof.
  intros Hs Hd Hb. unfold append, to_u32.
  destruct (len data <? 4294967296) eqn:E; [|lia]. cbn [obind].
  rewrite Hs. cbn [obind]. unfold to_u16. destruct (len b <? 65536) eqn:E2; [lia|]. reflexivity.
Qed.

(** The general form: [value] stands for the field [f]. *)
Definition value_for (value : option ser) (f : option bytes) : Prop :=
  match value, f with
  | None, None => True
  | Some s, Some b => if len b <=? 65535 then writes s b
                      else writes s b \/ expect_panics s
  | _, _ => False
  end.
Lemma append_value value f data w :
  value_for value f -> len data < 4294967296 ->
  append value data w =
    if len (content f) <=? 65535
    then Val (8, data ++ content f, w ++ descriptor (len data) f)
    else Panic PExpect.
Proof.
  destruct value as [s|], f as [b|]; cbn [value_for content]; try contradiction.
  - destruct (len b <=? 65535) eqn:E; intros H Hd.
    + apply append_some; auto; lia.
    + destruct H as [H|H]; [eapply append_big; eauto; lia|].
      unfold append, to_u32. destruct (len data <? 4294967296) eqn:E2; [|lia]. cbn [obind].
      now rewrite H.
  - intros _ _. rewrite app_nil_r. apply append_none.
Qed.
Lemma append_many_value cfg l data w :
  Forall valid_av_pair l -> len data < 4294967296 ->
  append_many (av_pair_ser cfg) l data w =
    if len (content (av_list_field cfg l)) <=? 65535
    then Val (8, data ++ content (av_list_field cfg l), w ++ descriptor (len data) (av_list_field cfg l))
    else Panic PExpect.
Proof.
  intros Hv Hd. unfold append_many, to_u32. destruct l as [|a l].
  - cbn [is_nil obind]. rewrite writes_field. cbn. now rewrite app_nil_r.
  - cbn [is_nil av_list_field content].
    destruct (len data <? 4294967296) eqn:E; [|lia]. cbn [obind].
    rewrite av_vec_spec by exact Hv.
    destruct (av_strings_fit cfg (a :: l)) eqn:F.
    + cbn [obind]. unfold to_u16.
      destruct (len (av_list_bytes cfg (a :: l)) <? 65536) eqn:E2;
      destruct (len (av_list_bytes cfg (a :: l)) <=? 65535) eqn:E3; try lia; [|reflexivity].
      cbn [obind]. rewrite writes_field. reflexivity.
    + apply av_strings_fit_total in F.
      destruct (len (av_list_bytes cfg (a :: l)) <=? 65535) eqn:E3; [lia|]. reflexivity.
Qed.

Lemma value_for_writes {T} (s : T -> ser) (e : T -> bytes) o :
  (forall x, o = Some x -> writes (s x) (e x)) -> value_for (opt_ser s o) (opt_map e o).
Proof.
  intros H. destruct o as [x|]; cbn; [|trivial]. specialize (H x eq_refl).
  destruct (len (e x) <=? 65535); auto.
Qed.
Lemma value_for_nt cfg o : valid_opt valid_nt o ->
  value_for (opt_ser (nt_challenge_ser cfg) o) (opt_map (nt_bytes cfg) o).
Proof.
  destruct o as [c|]; cbn [valid_opt opt_ser opt_map value_for]; [|trivial]. intros H.
  assert (Hs : forall w, _) by (intros w; exact (nt_spec cfg c w H)).
  destruct (match c with NtV1 _ => true | NtV2 c => av_strings_fit cfg (nt_target_infos c) end) eqn:F.
  - assert (writes (nt_challenge_ser cfg c) (nt_bytes cfg c)) by exact Hs.
    destruct (_ <=? _); auto.
  - destruct c as [r|c]; [discriminate|].
    apply av_strings_fit_total in F.
    destruct (len (nt_bytes cfg (NtV2 c)) <=? 65535) eqn:E.
    + exfalso. cbn [nt_bytes] in E. unfold ntv2_bytes in E. rewrite !len_app in E. lia.
    + right. exact Hs.
Qed.

(** ** Messages *)
Lemma start_payload_spec off v :
  start_payload off v = Val (zeros off ++ opt_version_bytes v).
Proof.
  destruct v as [v|]; cbn [start_payload opt_version_bytes].
  - rewrite writes_version. reflexivity.
  - now rewrite app_nil_r.
Qed.
Lemma finish_spec off x w pay : pay = zeros (N.to_nat off) ++ x ->
  finish off off pay w = Val (off + len x, w ++ x).
Proof.
  intros ->. unfold finish. rewrite N.eqb_refl.
  rewrite len_app, len_zeros, N2Nat.id.
  rewrite slice_ok by (rewrite ?len_app, ?len_zeros; lia). cbn [obind]. unfold write_all.
  replace (off + len x - off) with (len x) by lia.
  unfold sub. rewrite len_nat.
  rewrite skipn_app_exact by (unfold zeros; now rewrite repeat_length).
  now rewrite firstn_all.
Qed.

Lemma version_bytes_len v : len (version_bytes v) = 8.
Proof. reflexivity. Qed.
Lemma opt_version_bytes_len v : len (opt_version_bytes v) = if is_some v then 8 else 0.
Proof. now destruct v. Qed.
Lemma descriptor_length off f : length (descriptor off f) = 8%nat.
Proof. now destruct f. Qed.

Definition fitsb (fs : list (option bytes)) : bool :=
  forallb (fun f => len (content f) <=? 65535) fs.
Lemma fitsb_fits fs : fitsb fs = true <-> fits fs.
Proof.
  unfold fitsb, fits. rewrite forallb_forall, Forall_forall.
  split; intros H x Hx; specialize (H x Hx); lia.
Qed.

Ltac cond_step :=
  match goal with
  | |- context [if len (content ?f) <=? 65535 then _ else _] =>
      destruct (len (content f) <=? 65535) eqn:?; cbn [andb obind]; [|reflexivity]
  end.

Theorem negotiate_ser_spec n w : valid_negotiate n ->
  negotiate_ser n w =
    if fitsb (negotiate_fields n)
    then Val (len (negotiate_bytes n), w ++ negotiate_bytes n)
    else Panic PExpect.
Proof.
  intros _. unfold negotiate_ser, negotiate_bytes, negotiate_fields, fitsb.
  rewrite start_payload_spec. cbn [obind forallb descriptors concat].
  rewrite writes_u32; cbn [obind]. rewrite writes_flags; cbn [obind].
  rewrite (append_value _ (opt_map utf8 (n_domain n)))
    by (first [ apply value_for_writes; intros; apply writes_oem
        | rewrite len_app, len_zeros, opt_version_bytes_len; destruct (is_some _); lia ]).
  cond_step.
  rewrite (append_value _ (opt_map utf8 (n_workstation n)))
    by (first [ apply value_for_writes; intros; apply writes_oem
        | rewrite !len_app, len_zeros, opt_version_bytes_len; destruct (is_some _); lia ]).
  cond_step.
  change (len SIGNATURE + len (le32 1) + len (le32 (n_flags n)) + 8 + 8) with 32.
  rewrite <- !app_assoc. erewrite finish_spec by reflexivity.
  unfold write_all, contents. cbn [flat_map]. rewrite !app_nil_r.
  rewrite !len_app, !len_zeros. change (N.of_nat 32) with 32. rewrite !N.add_assoc.
  f_equal. f_equal.
  - unfold len. rewrite !descriptor_length. cbn [length NTLMSSP le32]. lia.
  - rewrite <- !app_assoc. reflexivity.
Qed.

Theorem challenge_ser_spec cfg c w : valid_challenge c ->
  challenge_ser cfg c w =
    if fitsb (challenge_fields cfg c)
    then Val (len (challenge_bytes cfg c), w ++ challenge_bytes cfg c)
    else Panic PExpect.
Proof.
  intros (_ & _ & [Hsc _] & Hav & _).
  unfold challenge_ser, challenge_bytes, challenge_fields, fitsb.
  rewrite start_payload_spec. cbn [obind forallb descriptors nth].
  rewrite writes_u32; cbn [obind].
  rewrite (append_value _ (opt_map utf16le (ch_target_name c)))
    by (first [ apply value_for_writes; intros; apply writes_unicode
        | rewrite len_app, len_zeros, opt_version_bytes_len; destruct (is_some _); lia ]).
  cond_step.
  rewrite writes_flags; cbn [obind]. rewrite writes_buf by exact Hsc. cbn [obind].
  unfold write_u64. rewrite writes_uint. cbn [obind].
  rewrite append_many_value
    by (first [ exact Hav | rewrite !len_app, len_zeros, opt_version_bytes_len; destruct (is_some _); lia ]).
  cond_step.
  assert (Hl : len (ch_server_challenge c) = 8) by (unfold len; now rewrite Hsc).
  rewrite Hl.
  change (len SIGNATURE + len (le32 2) + 8 + len (le32 (ch_flags c)) + 8 + len (le_enc 8 0) + 8) with 48.
  rewrite <- !app_assoc. erewrite finish_spec by reflexivity.
  unfold write_all, contents. cbn [flat_map]. rewrite !app_nil_r.
  rewrite !len_app, !len_zeros. change (N.of_nat 48) with 48. rewrite !N.add_assoc.
  change (le_enc 8 0) with [0; 0; 0; 0; 0; 0; 0; 0].
  f_equal. f_equal.
  - rewrite Hl. unfold len. rewrite !descriptor_length. cbn [length NTLMSSP le32]. lia.
  - rewrite <- !app_assoc. reflexivity.
Qed.

Theorem authenticate_ser_spec cfg a w : valid_authenticate a ->
  authenticate_ser cfg a w =
    if fitsb (authenticate_fields cfg a)
    then Val (len (authenticate_bytes cfg a), w ++ authenticate_bytes cfg a)
    else Panic PExpect.
Proof.
  intros (Hlm & Hnt & _ & _ & _ & Hk & _ & _ & [Hmic _] & _).
  unfold authenticate_ser, authenticate_bytes, authenticate_fields, fitsb.
  rewrite start_payload_spec. cbn [obind forallb descriptors concat].
  assert (Hl : len (a_mic a) = 16) by (unfold len; now rewrite Hmic).
  rewrite writes_u32; cbn [obind].
  assert (Hv : len (zeros 64 ++ opt_version_bytes (a_version a)) <= 72).
  { rewrite len_app, len_zeros, opt_version_bytes_len; destruct (is_some _); lia. }
  rewrite (append_value _ (opt_map lm_bytes (a_lm a)))
    by (first [ apply value_for_writes; intros x Hx; apply writes_lm; rewrite Hx in Hlm; exact Hlm
              | rewrite !len_app in *; lia ]).
  cond_step.
  rewrite (append_value _ (opt_map (nt_bytes cfg) (a_nt a)))
    by (first [ apply value_for_nt; exact Hnt | rewrite !len_app in *; lia ]).
  cond_step.
  rewrite (append_value _ (opt_map utf16le (a_domain a)))
    by (first [ apply value_for_writes; intros; apply writes_unicode | rewrite !len_app in *; lia ]).
  cond_step.
  rewrite (append_value _ (opt_map utf16le (a_user a)))
    by (first [ apply value_for_writes; intros; apply writes_unicode | rewrite !len_app in *; lia ]).
  cond_step.
  rewrite (append_value _ (opt_map utf16le (a_workstation a)))
    by (first [ apply value_for_writes; intros; apply writes_unicode | rewrite !len_app in *; lia ]).
  cond_step.
  replace (a_session_key a) with (opt_map (fun x : bytes => x) (a_session_key a)) at 3 4 5
    by (now destruct (a_session_key a)).
  rewrite (append_value _ (opt_map (fun x : bytes => x) (a_session_key a)))
    by (first [ apply value_for_writes; intros x Hx; rewrite Hx in Hk; apply writes_buf; apply Hk
              | rewrite !len_app in *; lia ]).
  replace (opt_map (fun x : bytes => x) (a_session_key a)) with (a_session_key a)
    by (now destruct (a_session_key a)).
  cond_step.
  rewrite writes_flags; cbn [obind].
  change (len SIGNATURE + len (le32 3) + 8 + 8 + 8 + 8 + 8 + 8 + len (le32 (a_flags a))) with 64.
  rewrite <- !app_assoc. erewrite finish_spec by reflexivity.
  unfold write_all, contents. cbn [flat_map]. rewrite !app_nil_r.
  rewrite !len_app, !len_zeros. change (N.of_nat 64) with 64. rewrite Hl, !N.add_assoc.
  f_equal. f_equal.
  - unfold len. rewrite !descriptor_length. cbn [length NTLMSSP le32]. lia.
  - rewrite <- !app_assoc. reflexivity.
Qed.
