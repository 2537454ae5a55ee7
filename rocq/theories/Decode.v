(** The parsers read back the specified encodings. *)
From Coq Require Import ZifyBool ZifyNat ZifyN.
From Verif Require Import Base Nom Unicode Wire Structures Messages Spec Lib Encode.

Ltac Zify.zify_post_hook ::= Z.div_mod_to_equations.

(** ** UTF-16 *)
Lemma unicode_unit_spec u :
  unicode_unit u = if (u =? 0) || surrogate u then None else Some u.
Proof.
  unfold unicode_unit, decode_utf16_unit, surrogate.
  destruct (u =? 0) eqn:E; [reflexivity|]. cbn [orb].
  replace (u <? 57344) with (u <=? 57343) by lia. reflexivity.
Qed.
Lemma unit_parser x y r :
  map_opt le_u16 unicode_unit (x :: y :: r)
  = if (x + 256 * y =? 0) || surrogate (x + 256 * y) then PErr EError else POk r (x + 256 * y).
Proof.
  unfold map_opt, le_u16, le_uint. change (x :: y :: r) with ([x; y] ++ r).
  rewrite take_ok by reflexivity. cbn [pbind le_dec].
  replace (x + 256 * (y + 256 * 0)) with (x + 256 * y) by lia.
  rewrite unicode_unit_spec. now destruct (_ || _).
Qed.
Lemma unit_parser_short b : (length b < 2)%nat -> map_opt le_u16 unicode_unit b = PErr EError.
Proof.
  intros H. unfold map_opt, le_u16, le_uint.
  destruct (take_cases 2 b) as [(a & r & -> & Ha & _)|[_ ->]]; [|reflexivity].
  rewrite app_length in H; lia.
Qed.
Lemma fold_unicode fuel acc b : (length b < fuel)%nat ->
  fold_many0_go fuel (map_opt le_u16 unicode_unit) (fun a c => a ++ [c]) acc b
  = POk (snd (read_utf16 b)) (acc ++ fst (read_utf16 b)).
Proof.
  revert acc b; induction fuel as [|fuel IH]; intros acc b H; [lia|].
  cbn [fold_many0_go].
  destruct b as [|x [|y r]].
  - cbn. now rewrite app_nil_r.
  - rewrite unit_parser_short by (cbn; lia). cbn. now rewrite app_nil_r.
  - rewrite unit_parser. cbn [read_utf16].
    destruct (_ || _).
    + cbn. now rewrite app_nil_r.
    + cbn [length] in H.
      destruct (length r =? length (x :: y :: r))%nat eqn:E; [cbn [length] in E; lia|].
      rewrite IH by lia. destruct (read_utf16 r) as [s t]. cbn [fst snd].
      now rewrite <- app_assoc.
Qed.
Lemma unicode_de_spec b : unicode_de b = POk (snd (read_utf16 b)) (fst (read_utf16 b)).
Proof. unfold unicode_de, fold_many0. rewrite fold_unicode by lia. reflexivity. Qed.

Lemma read_utf16_app s t : plain_string s ->
  read_utf16 (utf16le s ++ t) = (s ++ fst (read_utf16 t), snd (read_utf16 t)).
Proof.
  intros [H1 H2]. induction s as [|c s IH].
  - cbn. now destruct (read_utf16 t).
  - cbn [forallb] in H2. apply andb_true_iff in H2 as [Hc H2].
    inversion H1 as [|? ? Hs Hs']; subst. specialize (IH Hs' H2).
    unfold plain_char in Hc. unfold is_scalar, is_scalarb in Hs.
    change (utf16le (c :: s)) with (utf16le_char c ++ utf16le s). unfold utf16le_char.
    destruct (c <? 65536) eqn:E; [|lia]. unfold le16. cbn [app read_utf16].
    replace (c mod 256 + 256 * (c / 256 mod 256)) with c by lia.
    unfold surrogate.
    replace ((c =? 0) || ((55296 <=? c) && (c <=? 57343))) with false by lia.
    rewrite IH. reflexivity.
Qed.
Lemma read_utf16_plain s : plain_string s -> read_utf16 (utf16le s) = (s, []).
Proof. intros H. rewrite <- (app_nil_r (utf16le s)), read_utf16_app by exact H. cbn. now rewrite app_nil_r. Qed.
Lemma unicode_de_plain s : plain_string s -> unicode_de (utf16le s) = POk [] s.
Proof. intros H. rewrite unicode_de_spec, read_utf16_plain by exact H. reflexivity. Qed.

(** Reading in general: the text is plain, the bytes read are its encoding. *)
Lemma read_utf16_inv b : is_bytes b ->
  plain_string (fst (read_utf16 b)) /\ b = utf16le (fst (read_utf16 b)) ++ snd (read_utf16 b).
Proof.
  enough (H : forall n b, (length b <= n)%nat -> is_bytes b ->
     plain_string (fst (read_utf16 b)) /\ b = utf16le (fst (read_utf16 b)) ++ snd (read_utf16 b))
    by (intros; eapply H; eauto).
  clear b. induction n as [|n IH]; intros b Hn Hb.
  - destruct b; [|cbn in Hn; lia]. cbn. split; [split; [constructor|reflexivity]|reflexivity].
  - destruct b as [|x [|y r]]; try (cbn; split; [split; [constructor|reflexivity]|reflexivity]).
    cbn [read_utf16].
    inversion Hb as [|? ? Hx Hb']; subst. inversion Hb' as [|? ? Hy Hr]; subst.
    unfold is_u8 in *.
    destruct ((x + 256 * y =? 0) || surrogate (x + 256 * y)) eqn:E.
    + cbn. split; [split; [constructor|reflexivity]|reflexivity].
    + cbn [length] in Hn. destruct (IH r ltac:(lia) Hr) as [[I1 I2] I3].
      destruct (read_utf16 r) as [s t]. cbn [fst snd] in *.
      apply orb_false_iff in E as [E1 E2]. unfold surrogate in E2.
      split; [split|].
      * constructor; [|exact I1]. unfold is_scalar, is_scalarb. lia.
      * cbn [forallb]. rewrite I2, andb_true_r. unfold plain_char. lia.
      * change (utf16le (x + 256 * y :: s)) with (utf16le_char (x + 256 * y) ++ utf16le s).
        unfold utf16le_char. destruct (x + 256 * y <? 65536) eqn:E3; [|lia].
        unfold le16. cbn [app].
        replace ((x + 256 * y) mod 256) with x by lia.
        replace ((x + 256 * y) / 256 mod 256) with y by lia.
        now rewrite <- I3.
Qed.

(** ** UTF-8 *)
Lemma from_utf8_char c r : is_scalar c -> from_utf8 (utf8_char c ++ r) = scons c (from_utf8 r).
Proof.
  unfold is_scalar, is_scalarb. intros H. unfold utf8_char.
  destruct (c <? 128) eqn:E1.
  { cbn [app from_utf8]. now rewrite E1. }
  destruct (c <? 2048) eqn:E2.
  { cbn [app from_utf8].
    replace (192 + c / 64 <? 128) with false by lia.
    replace ((194 <=? 192 + c / 64) && (192 + c / 64 <? 224)) with true by lia.
    unfold cont.
    replace ((128 <=? 128 + c mod 64) && (128 + c mod 64 <? 192)) with true by lia.
    f_equal. lia. }
  destruct (c <? 65536) eqn:E3.
  { cbn [app from_utf8].
    replace (224 + c / 4096 <? 128) with false by lia.
    replace ((194 <=? 224 + c / 4096) && (224 + c / 4096 <? 224)) with false by lia.
    replace ((224 <=? 224 + c / 4096) && (224 + c / 4096 <? 240)) with true by lia.
    unfold cont.
    replace ((128 <=? 128 + c mod 64) && (128 + c mod 64 <? 192)) with true by lia.
    replace ((128 <=? 128 + c / 64 mod 64) && (128 + c / 64 mod 64 <? 192)) with true by lia.
    replace (negb (224 + c / 4096 =? 224) || (160 <=? 128 + c / 64 mod 64)) with true by lia.
    replace (negb (224 + c / 4096 =? 237) || (128 + c / 64 mod 64 <? 160)) with true by lia.
    cbn [andb]. f_equal. lia. }
  cbn [app from_utf8].
  replace (240 + c / 262144 <? 128) with false by lia.
  replace ((194 <=? 240 + c / 262144) && (240 + c / 262144 <? 224)) with false by lia.
  replace ((224 <=? 240 + c / 262144) && (240 + c / 262144 <? 240)) with false by lia.
  replace ((240 <=? 240 + c / 262144) && (240 + c / 262144 <? 245)) with true by lia.
  unfold cont.
  replace ((128 <=? 128 + c mod 64) && (128 + c mod 64 <? 192)) with true by lia.
  replace ((128 <=? 128 + c / 64 mod 64) && (128 + c / 64 mod 64 <? 192)) with true by lia.
  replace ((128 <=? 128 + c / 4096 mod 64) && (128 + c / 4096 mod 64 <? 192)) with true by lia.
  replace (negb (240 + c / 262144 =? 240) || (144 <=? 128 + c / 4096 mod 64)) with true by lia.
  replace (negb (240 + c / 262144 =? 244) || (128 + c / 4096 mod 64 <? 144)) with true by lia.
  cbn [andb]. f_equal. lia.
Qed.
Lemma from_utf8_ok s : is_string s -> from_utf8 (utf8 s) = Some s.
Proof.
  induction 1 as [|c s Hc Hs IH]; [reflexivity|].
  change (utf8 (c :: s)) with (utf8_char c ++ utf8 s).
  rewrite from_utf8_char by exact Hc. now rewrite IH.
Qed.
Lemma scons_inv c o s : scons c o = Some s -> exists s', o = Some s' /\ s = c :: s'.
Proof. destruct o; cbn; [|discriminate]. intros H; injection H as <-. eauto. Qed.

Lemma utf8_cons_inv c s b r : is_scalar c -> is_string s /\ utf8 s = r -> b = utf8_char c ++ r ->
  is_string (c :: s) /\ utf8 (c :: s) = b.
Proof.
  intros Hc [Hs <-] ->. split; [now constructor|]. reflexivity.
Qed.

Lemma from_utf8_inv b s : from_utf8 b = Some s -> is_string s /\ utf8 s = b.
Proof.
  revert s. enough (H : forall n b s, (length b <= n)%nat -> from_utf8 b = Some s -> is_string s /\ utf8 s = b)
    by (intros s; eapply H; reflexivity).
  induction n as [|n IH]; clear b; intros b s Hn H.
  - destruct b; [|cbn in Hn; lia]. injection H as <-. split; [constructor|reflexivity].
  - destruct b as [|b0 r0]; [injection H as <-; split; [constructor|reflexivity]|].
    cbn [from_utf8 length] in *.
    destruct (b0 <? 128) eqn:E0.
    { apply scons_inv in H as (s' & H & ->).
      eapply utf8_cons_inv; [|apply (IH r0); [lia|exact H]|].
      - unfold is_scalar, is_scalarb; lia.
      - unfold utf8_char; rewrite E0; reflexivity. }
    destruct ((194 <=? b0) && (b0 <? 224)) eqn:E1.
    { destruct r0 as [|b1 r1]; [discriminate|]. cbn [length] in Hn.
      destruct (cont b1) eqn:C1; [|discriminate]. unfold cont in C1.
      apply scons_inv in H as (s' & H & ->).
      eapply utf8_cons_inv; [|apply (IH r1); [lia|exact H]|].
      - unfold is_scalar, is_scalarb; lia.
      - set (c := (b0 - 192) * 64 + (b1 - 128)) in *. unfold utf8_char.
        replace (c <? 128) with false by lia. replace (c <? 2048) with true by lia.
        cbn [app]. f_equal; [lia|]. f_equal. lia. }
    destruct ((224 <=? b0) && (b0 <? 240)) eqn:E2.
    { destruct r0 as [|b1 [|b2 r2]]; [discriminate..|]. cbn [length] in Hn.
      destruct (cont b1) eqn:C1; [|discriminate].
      destruct (cont b2) eqn:C2; [|discriminate]. unfold cont in C1, C2. cbn [andb] in H.
      destruct (negb (b0 =? 224) || (160 <=? b1)) eqn:C3; [|discriminate].
      destruct (negb (b0 =? 237) || (b1 <? 160)) eqn:C4; [|discriminate]. cbn [andb] in H.
      apply scons_inv in H as (s' & H & ->).
      eapply utf8_cons_inv; [|apply (IH r2); [lia|exact H]|].
      - unfold is_scalar, is_scalarb; lia.
      - set (c := (b0 - 224) * 4096 + (b1 - 128) * 64 + (b2 - 128)) in *. unfold utf8_char.
        replace (c <? 128) with false by lia. replace (c <? 2048) with false by lia.
        replace (c <? 65536) with true by lia.
        cbn [app]. f_equal; [lia|]. f_equal; [lia|]. f_equal. lia. }
    destruct ((240 <=? b0) && (b0 <? 245)) eqn:E3; [|discriminate].
    destruct r0 as [|b1 [|b2 [|b3 r3]]]; [discriminate..|]. cbn [length] in Hn.
    destruct (cont b1) eqn:C1; [|discriminate].
    destruct (cont b2) eqn:C2; [|discriminate].
    destruct (cont b3) eqn:C5; [|discriminate]. unfold cont in C1, C2, C5. cbn [andb] in H.
    destruct (negb (b0 =? 240) || (144 <=? b1)) eqn:C3; [|discriminate].
    destruct (negb (b0 =? 244) || (b1 <? 144)) eqn:C4; [|discriminate]. cbn [andb] in H.
    apply scons_inv in H as (s' & H & ->).
    eapply utf8_cons_inv; [|apply (IH r3); [lia|exact H]|].
    + unfold is_scalar, is_scalarb; lia.
    + set (c := (b0 - 240) * 262144 + (b1 - 128) * 4096 + (b2 - 128) * 64 + (b3 - 128)) in *.
      unfold utf8_char.
      replace (c <? 128) with false by lia. replace (c <? 2048) with false by lia.
      replace (c <? 65536) with false by lia.
      cbn [app]. f_equal; [lia|]. f_equal; [lia|]. f_equal; [lia|]. f_equal. lia.
Qed.

Lemma oem_de_spec b : oem_de b = match from_utf8 b with Some s => POk [] s | None => PErr EError end.
Proof. reflexivity. Qed.
Lemma oem_de_ok s : is_string s -> oem_de (utf8 s) = POk [] s.
Proof. intros H. rewrite oem_de_spec, from_utf8_ok by exact H. reflexivity. Qed.

(** ** Fixed-size structures *)
Lemma flags_validate cfg f : validate cfg f = true.
Proof. unfold validate, cfg_features_strict. now rewrite !andb_false_r. Qed.
Lemma flags_de_ok cfg f r : is_u32 f -> flags_de cfg (le32 f ++ r) = POk r f.
Proof. intros H. apply verify_ok; [now apply le_u32_ok|apply flags_validate]. Qed.

Lemma le16_0 : le16 0 = [0; 0]. Proof. reflexivity. Qed.

Lemma version_de_ok v r : valid_version v -> v_revision v = 15 ->
  version_de (version_bytes v ++ r) = POk r v.
Proof.
  intros (H1 & H2 & H3 & H4) Hr. unfold version_bytes, version_de.
  rewrite !N.mod_small by assumption. rewrite <- !app_assoc. cbn [app].
  rewrite le_u8_ok by exact H1. cbn [pbind].
  rewrite le_u8_ok by exact H2. cbn [pbind].
  rewrite le_u16_ok by exact H3. cbn [pbind].
  change (0 :: 0 :: 0 :: v_revision v :: r) with (le_enc 3 0 ++ v_revision v :: r).
  unfold le_u24. rewrite (verify_ok _ _ _ (v_revision v :: r) 0) by (reflexivity || (apply le_uint_ok; reflexivity)).
  cbn [pbind].
  rewrite (verify_ok _ _ _ r 15) by (reflexivity || (rewrite Hr; now apply le_u8_ok)).
  cbn [pbind]. destruct v; cbn in *; subst; reflexivity.
Qed.

Lemma ft_value_spec t : valid_filetime t -> ft_as_u64 t = filetime_value t.
Proof.
  intros [H1 H2]. unfold ft_as_u64, filetime_value. unfold is_u32 in *.
  rewrite N.shiftl_mul_pow2. change (2 ^ 32) with 4294967296.
  set (h := ft_high t) in *. set (l := ft_low t) in *.
  apply N.bits_inj. intros k. rewrite N.lor_spec.
  destruct (N.lt_ge_cases k 32) as [Hk|Hk].
  - rewrite <- (N.mod_pow2_bits_low (h * 4294967296 + l) 32 k) by exact Hk.
    rewrite <- (N.mod_pow2_bits_low (h * 4294967296) 32 k) by exact Hk.
    change (2 ^ 32) with 4294967296. rewrite N.mod_mul by lia. rewrite N.bits_0. cbn [orb].
    f_equal. rewrite N.add_comm, N.mod_add by lia. rewrite N.mod_small; lia.
  - replace (N.testbit l k) with false.
    2:{ symmetry. destruct (N.eq_dec l 0) as [->|Hl]; [apply N.bits_0|].
        apply N.bits_above_log2. apply N.log2_lt_pow2; [lia|].
        apply N.lt_le_trans with (2 ^ 32); [exact H1|]. apply N.pow_le_mono_r; lia. }
    rewrite orb_false_r.
    replace k with (k - 32 + 32) by lia.
    rewrite <- !N.shiftr_spec by lia. rewrite !N.shiftr_div_pow2. change (2 ^ 32) with 4294967296.
    f_equal. lia.
Qed.
Lemma ft_value_u64 t : valid_filetime t -> filetime_value t < 18446744073709551616.
Proof. intros [H1 H2]. unfold filetime_value, is_u32 in *. lia. Qed.
Lemma ft_decodable cfg t : valid_filetime t ->
  (ft_to_system_time cfg t <> None <-> decodable_time cfg t).
Proof.
  intros H. unfold ft_to_system_time, epoch_checked_add_secs, decodable_time.
  rewrite ft_value_spec by exact H. pose proof (ft_value_u64 t H) as Hb.
  unfold NANO_TO_MILLI. destruct (windows cfg).
  - destruct (_ <=? _) eqn:E; split; intros H0; try congruence; intros; lia.
  - destruct (_ <=? _) eqn:E; split; intros H0; try congruence; intros; lia.
Qed.
Lemma filetime_de_ok cfg t r : valid_filetime t -> decodable_time cfg t ->
  filetime_de cfg (filetime_bytes t ++ r) = POk r t.
Proof.
  intros H Hd. unfold filetime_bytes, filetime_de. rewrite <- app_assoc.
  rewrite le_u32_ok by apply H. cbn [pbind]. rewrite le_u32_ok by apply H. cbn [pbind].
  apply (ft_decodable cfg t H) in Hd. destruct t as [l h]; cbn [ft_low ft_high] in *.
  destruct (ft_to_system_time cfg _); [reflexivity|congruence].
Qed.
Lemma single_host_de_ok h r : valid_single_host h -> sh_z4 h = 0 ->
  single_host_de (single_host_bytes h ++ r) = POk r h.
Proof.
  intros (H1 & H2 & [H3 _] & [H4 _]) Hz. unfold single_host_bytes, single_host_de.
  rewrite <- !app_assoc. rewrite le_u32_ok by exact H1. cbn [pbind].
  rewrite (verify_ok _ _ _ (sh_custom h ++ sh_machine h ++ r) 0)
    by (reflexivity || (rewrite Hz; apply le_u32_ok; reflexivity)).
  cbn [pbind]. rewrite take_ok by exact H3. cbn [pbind].
  rewrite take_ok by exact H4. cbn [pbind]. destruct h; cbn in *; subst; reflexivity.
Qed.
Lemma av_flags_de_ok f r :
  av_flags_de (le32 (bit (avf_constrained f) + 2 * bit (avf_mic f) + 4 * bit (avf_untrusted_spn f)) ++ r)
  = POk r f.
Proof. destruct f as [[|] [|] [|]]; reflexivity. Qed.
Lemma signature_de_ok s r : is_buffer 4 (sg_pad s) -> is_u32 (sg_checksum s) -> is_u32 (sg_seq s) ->
  signature_de ((le32 1 ++ sg_pad s ++ le32 (sg_checksum s) ++ le32 (sg_seq s)) ++ r) = POk r s.
Proof.
  intros [H1 _] H2 H3. unfold signature_de. rewrite <- !app_assoc.
  erewrite verify_ok; [|apply le_u32_ok; reflexivity|reflexivity]. cbn [pbind].
  unfold buf_de. rewrite take_ok by exact H1. cbn [pbind].
  rewrite le_u32_ok by exact H2. cbn [pbind].
  rewrite le_u32_ok by exact H3. cbn [pbind]. now destruct s.
Qed.

(** ** AV pairs *)
Lemma length_data_ok l v r : l = len v -> l <= 65535 -> length_data le_u16 (le16 l ++ v ++ r) = POk r v.
Proof.
  intros -> H. unfold length_data. rewrite le_u16_ok by (unfold is_u16; lia). cbn [pbind].
  destruct (len (v ++ r) <? len v) eqn:E; [rewrite len_app in E; lia|].
  rewrite len_nat, skipn_app_exact, firstn_app_exact by reflexivity. reflexivity.
Qed.
Lemma av_id_de_ok a r : av_id_de (le16 (av_code a) ++ r) = POk r (get_id a).
Proof.
  unfold av_id_de, map_opt. rewrite le_u16_ok by (destruct a; reflexivity). cbn [pbind].
  destruct a; reflexivity.
Qed.
Lemma av_pair_de_ok cfg a r :
  host_le cfg = true -> valid_av_pair a -> carried_av cfg a -> len (av_value cfg a) <= 65535 ->
  av_pair_de cfg (av_bytes cfg a ++ r) = POk r a.
Proof.
  intros Hle Hv Hc Hl. unfold av_bytes, av_pair_de. rewrite <- !app_assoc.
  rewrite av_id_de_ok. cbn [pbind]. rewrite length_data_ok by (auto; lia). cbn [pbind].
  unfold assert_consumed.
  destruct a; cbn [get_id av_value carried_av valid_av_pair] in *;
    unfold utf16_host; rewrite ?Hle; try reflexivity;
    try (rewrite unicode_de_plain by assumption; cbn [pbind is_nil negb]; now rewrite andb_false_r).
  - rewrite <- (app_nil_r (le32 _)), av_flags_de_ok. cbn [pbind is_nil negb]. now rewrite andb_false_r.
  - rewrite <- (app_nil_r (filetime_bytes t)), filetime_de_ok by assumption.
    cbn [pbind is_nil negb]. now rewrite andb_false_r.
  - rewrite <- (app_nil_r (single_host_bytes h)), single_host_de_ok by assumption.
    cbn [pbind is_nil negb]. now rewrite andb_false_r.
  - rewrite <- (app_nil_r hash), take_ok by apply Hv. cbn [pbind is_nil negb]. now rewrite andb_false_r, app_nil_r.
Qed.

(** ** many0 *)
Lemma many0_list {A} (p : parser A) (e : A -> bytes) l t :
  (forall x r, In x l -> p (e x ++ r) = POk r x) ->
  (forall x, In x l -> e x <> []) ->
  p t = PErr EError ->
  many0 p (flat_map e l ++ t) = POk t l.
Proof.
  intros Hp He Ht. unfold many0.
  enough (H : forall fuel, (length (flat_map e l ++ t) < fuel)%nat ->
                many0_go fuel p (flat_map e l ++ t) = POk t l) by (apply H; lia).
  induction l as [|x l IH]; intros fuel Hf.
  - destruct fuel; [lia|]. cbn [many0_go flat_map app]. now rewrite Ht.
  - destruct fuel as [|fuel]; [lia|]. cbn [many0_go flat_map] in *.
    rewrite <- app_assoc in *. rewrite Hp by (left; reflexivity).
    assert (Hx : e x <> []) by (apply He; left; reflexivity).
    rewrite (app_length (e x)) in *.
    assert (length (e x) <> 0%nat) by (destruct (e x); [congruence|cbn; lia]).
    destruct (length (flat_map e l ++ t) =? length (e x) + length (flat_map e l ++ t))%nat eqn:E; [lia|].
    rewrite IH; [reflexivity| | |lia].
    + intros y r Hy. apply Hp. right; exact Hy.
    + intros y Hy. apply He. right; exact Hy.
Qed.

(** The inputs at which an AV pair list ends. *)
Lemma av_id_of_none n : 10 < n -> av_id_of n = None.
Proof.
  intros H. destruct n as [|p]; [lia|].
  do 4 (destruct p as [p|p|]; try reflexivity; try lia).
Qed.
Lemma av_id_of_code n i : av_id_of n = Some i -> av_id_code i = n.
Proof.
  destruct n as [|p]; [intros H; injection H as <-; reflexivity|].
  do 4 (destruct p as [p|p|]; try discriminate; try (intros H; injection H as <-; reflexivity)).
Qed.
Lemma av_pair_de_stop cfg t : (length t < 4)%nat \/ 10 < u16_at t 0 -> av_pair_de cfg t = PErr EError.
Proof.
  intros H. unfold av_pair_de, av_id_de, map_opt, le_u16, le_uint, length_data.
  destruct (take_cases 2 t) as [(a & r & -> & Ha & ->)|[Hl ->]]; [|reflexivity].
  cbn [pbind]. destruct H as [H|H].
  - destruct (av_id_of (le_dec a)); [|reflexivity]. cbn [pbind].
    destruct (take_cases 2 r) as [(a' & r' & -> & Ha' & _)|[_ ->]]; [|reflexivity].
    rewrite !app_length in H. lia.
  - destruct a as [|x [|y [|]]]; try discriminate.
    change (10 < x + 256 * y) in H.
    rewrite av_id_of_none; [reflexivity|]. cbn [le_dec]. lia.
Qed.
Lemma av_bytes_nonempty cfg a : av_bytes cfg a <> [].
Proof. discriminate. Qed.
Lemma av_list_de_ok cfg l t :
  host_le cfg = true -> Forall valid_av_pair l -> Forall (carried_av cfg) l ->
  Forall (fun a => len (av_value cfg a) <= 65535) l ->
  (length t < 4)%nat \/ 10 < u16_at t 0 ->
  many0 (av_pair_de cfg) (av_list_bytes cfg l ++ t) = POk t l.
Proof.
  intros Hle Hv Hc Hl Ht. rewrite Forall_forall in *.
  apply many0_list; auto using av_pair_de_stop, av_bytes_nonempty.
  intros x r Hx. apply av_pair_de_ok; auto.
Qed.
Lemma av_list_fit cfg l : len (av_list_bytes cfg l) <= 65535 ->
  Forall (fun a => len (av_value cfg a) <= 65535) l.
Proof.
  intros H. destruct (av_strings_fit cfg l) eqn:E.
  - unfold av_strings_fit in E. rewrite forallb_forall in E. apply Forall_forall.
    intros x Hx. specialize (E x Hx). lia.
  - apply av_strings_fit_total in E. lia.
Qed.

(** ** Responses *)
Lemma lmv1_de_ok r t : length r = 24%nat -> lmv1_de (r ++ t) = POk t (LmV1 r).
Proof. intros H. unfold lmv1_de, pmap, buf_de. now rewrite take_ok. Qed.
Lemma lmv2_de_ok r cc t : length r = 16%nat -> length cc = 8%nat ->
  lmv2_de ((r ++ cc) ++ t) = POk t (LmV2 r cc).
Proof.
  intros H1 H2. unfold lmv2_de, buf_de. rewrite <- app_assoc, take_ok by exact H1.
  cbn [pbind]. now rewrite take_ok.
Qed.
Lemma ntv2_de_ok cfg c : host_le cfg = true ->
  valid_nt (NtV2 c) -> carried_nt cfg (NtV2 c) -> len (ntv2_bytes cfg c) <= 65535 ->
  ntv2_de cfg (ntv2_bytes cfg c) = POk [] c.
Proof.
  intros Hle (Ht & [Hc _] & Ha) (Hd & Hca) Hl.
  unfold ntv2_bytes in *. rewrite !len_app in Hl. unfold ntv2_de. cbn [app].
  erewrite verify_ok; [|apply le_u8_ok; reflexivity|reflexivity]. cbn [pbind].
  erewrite verify_ok; [|apply le_u8_ok; reflexivity|reflexivity]. cbn [pbind].
  match goal with |- context [verify le_u16 _ (0 :: 0 :: ?x)] => change (0 :: 0 :: x) with (le16 0 ++ x) end.
  erewrite verify_ok; [|apply le_u16_ok; reflexivity|reflexivity]. cbn [pbind].
  match goal with |- context [verify le_u32 _ (0 :: 0 :: 0 :: 0 :: ?x)] => change (0 :: 0 :: 0 :: 0 :: x) with (le32 0 ++ x) end.
  erewrite verify_ok; [|apply le_u32_ok; reflexivity|reflexivity]. cbn [pbind].
  rewrite filetime_de_ok by assumption. cbn [pbind].
  unfold buf_de. rewrite take_ok by exact Hc. cbn [pbind].
  match goal with |- context [verify le_u32 _ (0 :: 0 :: 0 :: 0 :: ?x)] => change (0 :: 0 :: 0 :: 0 :: x) with (le32 0 ++ x) end.
  erewrite verify_ok; [|apply le_u32_ok; reflexivity|reflexivity]. cbn [pbind].
  rewrite <- (app_nil_r (av_list_bytes cfg _)). rewrite av_list_de_ok; auto.
  - cbn [pbind]. now destruct c.
  - apply av_list_fit. lia.
  - left. cbn. lia.
Qed.
Lemma ntv2_de_short cfg i : (length i < 28)%nat -> ntv2_de cfg i = PErr EError.
Proof.
  intros H. unfold ntv2_de, verify, le_u8, le_u16, le_u32, le_uint, buf_de, filetime_de, le_u32, le_uint.
  destruct (take_cases 1 i) as [(a & r & -> & Ha & ->)|[_ ->]]; [|reflexivity]. cbn [pbind].
  destruct (le_dec a =? 1); [|reflexivity]. cbn [pbind]. rewrite app_length in H.
  destruct (take_cases 1 r) as [(a1 & r1 & -> & Ha1 & ->)|[_ ->]]; [|reflexivity]. cbn [pbind].
  destruct (le_dec a1 =? 1); [|reflexivity]. cbn [pbind]. rewrite app_length in H.
  destruct (take_cases 2 r1) as [(a2 & r2 & -> & Ha2 & ->)|[_ ->]]; [|reflexivity]. cbn [pbind].
  destruct (le_dec a2 =? 0); [|reflexivity]. cbn [pbind]. rewrite app_length in H.
  destruct (take_cases 4 r2) as [(a3 & r3 & -> & Ha3 & ->)|[_ ->]]; [|reflexivity]. cbn [pbind].
  destruct (le_dec a3 =? 0); [|reflexivity]. cbn [pbind]. rewrite app_length in H.
  destruct (take_cases 4 r3) as [(a4 & r4 & -> & Ha4 & ->)|[_ ->]]; [|reflexivity]. cbn [pbind]. rewrite app_length in H.
  destruct (take_cases 4 r4) as [(a5 & r5 & -> & Ha5 & ->)|[_ ->]]; [|reflexivity]. cbn [pbind]. rewrite app_length in H.
  destruct (ft_to_system_time _ _); [|reflexivity]. cbn [pbind].
  destruct (take_cases 8 r5) as [(a6 & r6 & -> & Ha6 & ->)|[_ ->]]; [|reflexivity]. cbn [pbind]. rewrite app_length in H.
  destruct (take_cases 4 r6) as [(a7 & r7 & -> & Ha7 & ->)|[_ ->]]; [|reflexivity]. rewrite app_length in H. lia.
Qed.
Lemma nt_challenge_de_ok cfg c : host_le cfg = true ->
  valid_nt c -> carried_nt cfg c -> len (nt_bytes cfg c) <= 65535 ->
  exists r, nt_challenge_de cfg (nt_bytes cfg c) = POk r c.
Proof.
  intros Hle Hv Hc Hl. unfold nt_challenge_de, alt2, pmap. destruct c as [r|c]; cbn [nt_bytes] in *.
  - destruct Hv as [Hr _]. rewrite ntv2_de_short by lia. cbn [pbind].
    unfold ntv1_de, pmap, buf_de. exists []. rewrite <- (app_nil_r r) at 1. now rewrite take_ok.
  - rewrite ntv2_de_ok by assumption. now exists [].
Qed.

(** ** Fields *)
Lemma field_de_ok l m o r : is_u16 l -> is_u16 m -> is_u32 o ->
  field_de ((le16 l ++ le16 m ++ le32 o) ++ r) = POk r (mkField l m o).
Proof.
  intros H1 H2 H3. unfold field_de. rewrite <- !app_assoc.
  rewrite le_u16_ok by exact H1. cbn [pbind]. rewrite le_u16_ok by exact H2. cbn [pbind].
  now rewrite le_u32_ok.
Qed.
(** The field a descriptor stands for. *)
Definition field_of (off : N) (f : option bytes) : field :=
  match f with Some x => mkField (len x) (len x) off | None => mkField 0 0 0 end.
Lemma descriptor_de off f r : len (content f) <= 65535 -> off < 4294967296 ->
  field_de (descriptor off f ++ r) = POk r (field_of off f).
Proof.
  intros H1 H2. destruct f as [x|]; cbn [descriptor field_of content] in *.
  - apply field_de_ok; unfold is_u16, is_u32; lia.
  - change [0; 0; 0; 0; 0; 0; 0; 0] with (le16 0 ++ le16 0 ++ le32 0). now apply field_de_ok.
Qed.
Lemma get_data_field {T U} (p : parser T) (e : U -> bytes) o (q : option T) pre post off :
  len pre = off ->
  (o = None -> q = None) ->
  (forall x, o = Some x -> (e x = [] /\ q = None) \/ (e x <> [] /\ exists r y, p (e x) = POk r y /\ q = Some y)) ->
  get_data_if (field_of off (opt_map e o)) p (pre ++ content (opt_map e o) ++ post) true = POk [] q.
Proof.
  intros Hp Hn H. unfold get_data_if. destruct o as [x|]; cbn [opt_map field_of content f_len].
  2:{ now rewrite Hn. }
  destruct (H x eq_refl) as [[Hne ->]|[Hne (r & y & Hr & ->)]]; [now rewrite Hne|].
  destruct (len (e x) =? 0) eqn:E; [exfalso; apply Hne, len_0_nil; lia|].
  unfold get_range; cbn [f_offset f_len fst snd].
  rewrite slice_ok by (rewrite ?len_app; lia). cbn [plift].
  replace (off + len (e x) - off) with (len (e x)) by lia.
  rewrite sub_app by auto. rewrite Hr. reflexivity.
Qed.
Lemma get_many_field cfg l pre post off :
  len pre = off -> host_le cfg = true -> Forall valid_av_pair l -> Forall (carried_av cfg) l ->
  len (content (av_list_field cfg l)) <= 65535 ->
  get_many_if (field_of off (av_list_field cfg l)) (av_pair_de cfg)
    (pre ++ content (av_list_field cfg l) ++ post) true = POk [] l.
Proof.
  intros Hp Hle Hv Hc Hl. unfold get_many_if. destruct l as [|a l]; [reflexivity|].
  cbn [av_list_field field_of content f_len] in *.
  destruct (len (av_list_bytes cfg (a :: l)) =? 0) eqn:E.
  { cbn [av_list_bytes flat_map] in E. rewrite len_app, av_bytes_len in E. lia. }
  unfold get_range; cbn [f_offset f_len fst snd].
  rewrite slice_ok by (rewrite ?len_app; lia). cbn [plift].
  replace (off + _ - off) with (len (av_list_bytes cfg (a :: l))) by lia.
  rewrite sub_app by auto.
  rewrite <- (app_nil_r (av_list_bytes cfg _)), av_list_de_ok; auto using av_list_fit.
  left; cbn; lia.
Qed.

(** ** Messages *)
Lemma has_flag_testbit f i : has_flag f i = N.testbit f i.
Proof.
  unfold has_flag. rewrite N.shiftl_1_l.
  destruct (N.testbit f i) eqn:E.
  - destruct (N.land f (2 ^ i) =? 0) eqn:Z; [|reflexivity].
    apply N.eqb_eq in Z. assert (N.testbit (N.land f (2 ^ i)) i = false) by (rewrite Z; apply N.bits_0).
    rewrite N.land_spec, N.pow2_bits_true, E in H. discriminate.
  - replace (N.land f (2 ^ i)) with 0; [reflexivity|].
    symmetry. apply N.bits_inj. intros k. rewrite N.land_spec, N.bits_0, N.pow2_bits_eqb.
    destruct (N.eqb_spec i k) as [->|]; [now rewrite E|now rewrite andb_false_r].
Qed.

Lemma cond_version_ok f v r : revision_ok f v -> valid_opt valid_version v ->
  cond (has_flag f NTLMSSP_NEGOTIATE_VERSION) version_de (opt_version_bytes v ++ r) = POk r v.
Proof.
  unfold cond, NTLMSSP_NEGOTIATE_VERSION. rewrite has_flag_testbit.
  destruct v as [v|]; cbn [revision_ok valid_opt opt_version_bytes].
  - intros [-> Hr] Hv. rewrite version_de_ok by assumption. reflexivity.
  - intros -> _. reflexivity.
Qed.

Lemma utf8_nonempty s : s <> [] -> utf8 s <> [].
Proof.
  destruct s as [|c s]; [congruence|]. intros _ H.
  change (utf8 (c :: s)) with (utf8_char c ++ utf8 s) in H. apply app_eq_nil in H as [H _].
  unfold utf8_char in H. destruct (c <? 128), (c <? 2048), (c <? 65536); discriminate.
Qed.
Lemma utf16le_nonempty s : s <> [] -> utf16le s <> [].
Proof.
  destruct s as [|c s]; [congruence|]. intros _ H.
  change (utf16le (c :: s)) with (utf16le_char c ++ utf16le s) in H. apply app_eq_nil in H as [H _].
  unfold utf16le_char in H. destruct (c <? 65536); discriminate.
Qed.

(** ** Texts cut at the first character that cannot be carried *)
Lemma plain_prefix_read s t : is_string s -> plain_prefix s <> s ->
  read_utf16 (utf16le s ++ t) = (plain_prefix s, utf16le (skipn (length (plain_prefix s)) s) ++ t).
Proof.
  induction s as [|c s IH]; intros Hs Hne; [contradiction (Hne eq_refl)|].
  inversion Hs as [|? ? Hc Hs']; subst. cbn [plain_prefix] in *.
  change (utf16le (c :: s)) with (utf16le_char c ++ utf16le s). unfold utf16le_char.
  unfold is_scalar, is_scalarb in Hc.
  destruct (plain_char c) eqn:E; unfold plain_char in E.
  - assert (Hne' : plain_prefix s <> s) by congruence. specialize (IH Hs' Hne').
    replace (c <? 65536) with true by lia. rewrite <- app_assoc. cbn [length skipn le16 app read_utf16].
    replace (c mod 256 + 256 * (c / 256 mod 256)) with c by lia. unfold surrogate.
    replace ((c =? 0) || ((55296 <=? c) && (c <=? 57343))) with false by lia.
    rewrite IH. reflexivity.
  - cbn [length skipn]. rewrite <- !app_assoc.
    change (utf16le (c :: s)) with (utf16le_char c ++ utf16le s). unfold utf16le_char.
    destruct (c <? 65536) eqn:E2.
    + assert (c = 0) by lia. subst c. reflexivity.
    + set (u := 55296 + (c - 65536) / 1024). rewrite <- !app_assoc. cbn [le16 app read_utf16].
      replace (u mod 256 + 256 * (u / 256 mod 256)) with u by lia.
      unfold surrogate. replace ((u =? 0) || ((55296 <=? u) && (u <=? 57343))) with true by lia.
      reflexivity.
Qed.
Lemma plain_prefix_all s : is_string s -> plain_prefix s = s -> plain_string s.
Proof.
  intros Hs Hp. split; [exact Hs|]. clear Hs. induction s as [|c s IH]; [reflexivity|].
  cbn [plain_prefix] in Hp. cbn [forallb]. destruct (plain_char c); [|discriminate].
  injection Hp as Hp. now rewrite IH.
Qed.
Lemma unicode_de_prefix s : is_string s ->
  unicode_de (utf16le s) = POk (utf16le (skipn (length (plain_prefix s)) s)) (plain_prefix s).
Proof.
  intros Hs. destruct (list_eq_dec N.eq_dec (plain_prefix s) s) as [E|E].
  - rewrite E, skipn_all. apply unicode_de_plain, plain_prefix_all; assumption.
  - rewrite unicode_de_spec, <- (app_nil_r (utf16le s)).
    rewrite plain_prefix_read by assumption. cbn [fst snd]. now rewrite app_nil_r.
Qed.
Lemma plain_prefix_plain s : plain_string s -> plain_prefix s = s.
Proof.
  intros [_ H]. induction s as [|c s IH]; [reflexivity|]. cbn [forallb plain_prefix] in *.
  apply andb_true_iff in H as [-> H]. now rewrite IH.
Qed.
Lemma seen_text_carried o : carried_string o -> seen_text o = o.
Proof.
  destruct o as [[|c s]|]; [intros [_ H]; exfalso; now apply H| |reflexivity].
  intros [H _]. unfold seen_text. now rewrite plain_prefix_plain.
Qed.
Lemma seen_oem_nonempty o : nonempty_opt o -> seen_oem o = o.
Proof. destruct o as [[|c s]|]; [intros H; exfalso; now apply H|reflexivity..]. Qed.
