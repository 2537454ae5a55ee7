(** The decoders equal the by-offset specification, on every byte string. *)
From Coq Require Import ZifyBool ZifyNat ZifyN.
From Verif Require Import Base Nom Unicode Wire Structures Messages Spec Lib Encode Decode RoundTrip.

Ltac Zify.zify_post_hook ::= Z.div_mod_to_equations.

(** ** Parsing at an offset *)
Definition drop (k : N) (b : bytes) : bytes := skipn (N.to_nat k) b.

Lemma skipn_skipn {A} i j (l : list A) : skipn i (skipn j l) = skipn (j + i) l.
Proof. revert l; induction j as [|j IH]; intros [|x l]; cbn; auto. apply skipn_nil. Qed.
Lemma drop_drop j k b : drop j (drop k b) = drop (k + j) b.
Proof.
  unfold drop. rewrite skipn_skipn. f_equal. lia.
Qed.
Lemma drop_len k b : len (drop k b) = len b - k.
Proof. unfold drop, len. rewrite skipn_length. lia. Qed.
Lemma drop_0 b : drop 0 b = b.
Proof. reflexivity. Qed.
Lemma drop_bytes k b : is_bytes b -> is_bytes (drop k b).
Proof. apply is_bytes_skipn. Qed.
Lemma sub_drop b k n : sub b k n = firstn (N.to_nat n) (drop k b).
Proof. reflexivity. Qed.
Lemma nth_skipn {A} i k (l : list A) d : nth i (skipn k l) d = nth (k + i) l d.
Proof.
  revert l; induction k as [|k IH]; intros l; [reflexivity|].
  destruct l; [now destruct i|]. cbn. apply IH.
Qed.
Lemma byte_at_drop b k i : byte_at (drop k b) i = byte_at b (k + i).
Proof. unfold byte_at, drop. rewrite nth_skipn. f_equal. lia. Qed.
Lemma u16_at_drop b k i : u16_at (drop k b) i = u16_at b (k + i).
Proof. unfold u16_at. rewrite !byte_at_drop. f_equal. f_equal. f_equal. lia. Qed.
Lemma u32_at_drop b k i : u32_at (drop k b) i = u32_at b (k + i).
Proof. unfold u32_at. rewrite !u16_at_drop. f_equal. f_equal. f_equal. lia. Qed.
Lemma sub_drop_sub b k o n : sub (drop k b) o n = sub b (k + o) n.
Proof. rewrite !sub_drop, drop_drop. reflexivity. Qed.

Lemma take_at n b k :
  take n (drop k b) = if k + N.of_nat n <=? len b then POk (drop (k + N.of_nat n) b) (sub b k (N.of_nat n))
                      else if (N.of_nat n =? 0) then POk (drop k b) [] else PErr EError.
Proof.
  unfold take. pose proof (drop_len k b) as Hl. unfold len in *.
  destruct (length (drop k b) <? n)%nat eqn:E1; destruct (k + N.of_nat n <=? N.of_nat (length b)) eqn:E2; try lia.
  - destruct (N.of_nat n =? 0) eqn:E3; [lia|reflexivity].
  - rewrite sub_drop, Nat2N.id. f_equal. rewrite <- drop_drop. unfold drop. now rewrite Nat2N.id.
  - destruct n; [|lia]. reflexivity.
Qed.

Lemma sub_S b k n : k < len b -> sub b k (1 + n) = byte_at b k :: sub b (k + 1) n.
Proof.
  intros H. unfold byte_at. rewrite !sub_drop, <- drop_drop.
  assert (Hn : nth (N.to_nat k) b 0 = nth 0 (drop k b) 0).
  { unfold drop. rewrite nth_skipn. f_equal. lia. }
  rewrite Hn. pose proof (drop_len k b) as Hl.
  destruct (drop k b) as [|x r]; [rewrite len_nil in Hl; lia|].
  replace (N.to_nat (1 + n)) with (S (N.to_nat n)) by lia. reflexivity.
Qed.
Lemma sub_0 b k : sub b k 0 = [].
Proof. reflexivity. Qed.
Lemma le_dec_sub1 b k : k + 1 <= len b -> le_dec (sub b k 1) = byte_at b k.
Proof. intros H. change 1 with (1 + 0). rewrite sub_S by lia. rewrite sub_0. cbn [le_dec]. lia. Qed.
Lemma le_dec_sub2 b k : k + 2 <= len b -> le_dec (sub b k 2) = u16_at b k.
Proof.
  intros H. change 2 with (1 + 1). rewrite sub_S by lia. cbn [le_dec]. rewrite le_dec_sub1 by lia. reflexivity.
Qed.
Lemma le_dec_sub4 b k : k + 4 <= len b -> le_dec (sub b k 4) = u32_at b k.
Proof.
  intros H. change 4 with (1 + (1 + 2)). rewrite !sub_S by lia. cbn [le_dec].
  rewrite le_dec_sub2 by lia. unfold u32_at, u16_at.
  replace (k + 1 + 1) with (k + 2) by lia. lia.
Qed.
Lemma le_u8_at b k : le_u8 (drop k b) = if k + 1 <=? len b then POk (drop (k + 1) b) (byte_at b k) else PErr EError.
Proof.
  unfold le_u8, le_uint. rewrite take_at. change (N.of_nat 1) with 1.
  destruct (k + 1 <=? len b) eqn:E; cbn [pbind N.eqb]; [|reflexivity]. rewrite le_dec_sub1 by lia. reflexivity.
Qed.
Lemma le_u16_at b k : le_u16 (drop k b) = if k + 2 <=? len b then POk (drop (k + 2) b) (u16_at b k) else PErr EError.
Proof.
  unfold le_u16, le_uint. rewrite take_at. change (N.of_nat 2) with 2.
  destruct (k + 2 <=? len b) eqn:E; cbn [pbind N.eqb]; [|reflexivity]. rewrite le_dec_sub2 by lia. reflexivity.
Qed.
Lemma le_u24_at b k : le_u24 (drop k b) = if k + 3 <=? len b then POk (drop (k + 3) b) (byte_at b k + 256 * u16_at b (k + 1)) else PErr EError.
Proof.
  unfold le_u24, le_uint. rewrite take_at. change (N.of_nat 3) with (1 + 2).
  destruct (k + (1 + 2) <=? len b) eqn:E; cbn [pbind].
  - rewrite sub_S by lia. cbn [le_dec]. rewrite le_dec_sub2 by lia.
    replace (k + 3 <=? len b) with true by lia. reflexivity.
  - replace (k + 3 <=? len b) with false by lia. reflexivity.
Qed.
Lemma le_u32_at b k : le_u32 (drop k b) = if k + 4 <=? len b then POk (drop (k + 4) b) (u32_at b k) else PErr EError.
Proof.
  unfold le_u32, le_uint. rewrite take_at. change (N.of_nat 4) with 4.
  destruct (k + 4 <=? len b) eqn:E; cbn [pbind N.eqb]; [|reflexivity]. rewrite le_dec_sub4 by lia. reflexivity.
Qed.
Lemma field_at b k : field_de (drop k b) =
  if k + 8 <=? len b then POk (drop (k + 8) b) (mkField (field_len b k) (u16_at b (k + 2)) (field_off b k))
  else PErr EError.
Proof.
  unfold field_de, field_len, field_off. rewrite le_u16_at.
  destruct (k + 2 <=? len b) eqn:E1; cbn [pbind]; [|replace (k + 8 <=? len b) with false by lia; reflexivity].
  rewrite le_u16_at. replace (k + 2 + 2) with (k + 4) by lia.
  destruct (k + 4 <=? len b) eqn:E2; cbn [pbind]; [|replace (k + 8 <=? len b) with false by lia; reflexivity].
  rewrite le_u32_at. replace (k + 4 + 4) with (k + 8) by lia.
  destruct (k + 8 <=? len b) eqn:E3; reflexivity.
Qed.

Lemma is_bytes_nth b i : is_bytes b -> nth i b 0 < 256.
Proof.
  intros H. destruct (Nat.lt_ge_cases i (length b)) as [Hi|Hi].
  - unfold is_bytes in H. rewrite Forall_forall in H. apply H, nth_In, Hi.
  - rewrite nth_overflow by exact Hi. lia.
Qed.
Lemma byte_at_u8 b i : is_bytes b -> byte_at b i < 256.
Proof. apply is_bytes_nth. Qed.
Lemma u16_at_u16 b i : is_bytes b -> u16_at b i < 65536.
Proof. intros H. unfold u16_at. pose proof (byte_at_u8 b i H). pose proof (byte_at_u8 b (i + 1) H). lia. Qed.
Lemma u32_at_u32 b i : is_bytes b -> u32_at b i < 4294967296.
Proof. intros H. unfold u32_at. pose proof (u16_at_u16 b i H). pose proof (u16_at_u16 b (i + 2) H). lia. Qed.

Lemma version_de_at b k : version_de (drop k b) =
  if version_ok b k then POk (drop (k + 8) b) (version_at b k) else PErr EError.
Proof.
  unfold version_de, version_ok, version_at, verify. rewrite le_u8_at.
  destruct (k + 1 <=? len b) eqn:E1; cbn [pbind]; [|replace (k + 8 <=? len b) with false by lia; reflexivity].
  rewrite le_u8_at. replace (k + 1 + 1) with (k + 2) by lia.
  destruct (k + 2 <=? len b) eqn:E2; cbn [pbind]; [|replace (k + 8 <=? len b) with false by lia; reflexivity].
  rewrite le_u16_at. replace (k + 2 + 2) with (k + 4) by lia.
  destruct (k + 4 <=? len b) eqn:E3; cbn [pbind]; [|replace (k + 8 <=? len b) with false by lia; reflexivity].
  rewrite le_u24_at. replace (k + 4 + 3) with (k + 7) by lia.
  destruct (k + 7 <=? len b) eqn:E4; cbn [pbind]; [|replace (k + 8 <=? len b) with false by lia; reflexivity].
  unfold u16_at. replace (k + 4 + 1) with (k + 5) by lia. replace (k + 5 + 1) with (k + 6) by lia.
  replace (k + 2 + 1) with (k + 3) by lia.
  destruct (_ =? 0) eqn:E5; cbn [pbind].
  - rewrite le_u8_at. replace (k + 7 + 1) with (k + 8) by lia.
    replace (byte_at b (k + 4) =? 0) with true by lia.
    replace (byte_at b (k + 5) =? 0) with true by lia.
    replace (byte_at b (k + 6) =? 0) with true by lia.
    rewrite !andb_true_r.
    destruct (k + 8 <=? len b) eqn:E6; cbn [pbind andb]; [|reflexivity].
    change NTLMSSP_REVISION_W2K3 with 15.
    destruct (byte_at b (k + 7) =? 15) eqn:E7; cbn [pbind]; [|reflexivity].
    apply N.eqb_eq in E7. rewrite E7. reflexivity.
  - replace ((k + 8 <=? len b) && (byte_at b (k + 4) =? 0) && (byte_at b (k + 5) =? 0)
             && (byte_at b (k + 6) =? 0) && (byte_at b (k + 7) =? 15)) with false by lia. reflexivity.
Qed.
Lemma cond_version_at b f k : k <= len b ->
  cond (has_flag f NTLMSSP_NEGOTIATE_VERSION) version_de (drop k b) =
  if opt_version_ok b f k then POk (drop (if N.testbit f 25 then k + 8 else k) b) (opt_version_at b f k)
  else PErr EError.
Proof.
  intros _. unfold cond, opt_version_ok, opt_version_at. rewrite has_flag_testbit.
  change NTLMSSP_NEGOTIATE_VERSION with 25. destruct (N.testbit f 25); [|reflexivity].
  rewrite version_de_at. destruct (version_ok b k); reflexivity.
Qed.
Lemma flags_de_at cfg b k : flags_de cfg (drop k b) =
  if k + 4 <=? len b then POk (drop (k + 4) b) (u32_at b k) else PErr EError.
Proof.
  unfold flags_de, verify. rewrite le_u32_at. destruct (_ <=? _); [|reflexivity].
  cbn [pbind]. now rewrite flags_validate.
Qed.
Lemma le_u32_verify_at b k v : verify le_u32 (fun x => x =? v) (drop k b) =
  if (k + 4 <=? len b) && (u32_at b k =? v) then POk (drop (k + 4) b) v else PErr EError.
Proof.
  unfold verify. rewrite le_u32_at. destruct (_ <=? _); [|reflexivity]. cbn [pbind andb].
  destruct (u32_at b k =? v) eqn:E; [|reflexivity]. apply N.eqb_eq in E. now rewrite E.
Qed.
Lemma tag_at b : tag SIGNATURE b =
  if beq_bytes (sub b 0 8) NTLMSSP then POk (drop 8 b) NTLMSSP else PErr EError.
Proof.
  unfold tag. change (length SIGNATURE) with 8%nat. change SIGNATURE with NTLMSSP.
  change (firstn 8 b) with (sub b 0 8). change (skipn 8 b) with (drop 8 b).
  destruct (beq_bytes (sub b 0 8) NTLMSSP) eqn:E.
  - rewrite andb_true_r. destruct (8 <=? length b)%nat eqn:E2; [reflexivity|].
    exfalso. apply beq_bytes_eq in E. apply (f_equal (@length N)) in E.
    unfold sub in E. rewrite firstn_length, skipn_length in E. cbn in E. lia.
  - rewrite andb_false_r. reflexivity.
Qed.

(** ** Fields *)
Definition outsideb (b : bytes) (o : N) : bool :=
  negb (field_len b o =? 0) && (len b <? field_off b o + field_len b o).
Lemma outsideb_spec b o : outsideb b o = true <-> outside b o.
Proof. unfold outsideb, outside. lia. Qed.
Lemma outsideb_false b o : outsideb b o = false <-> ~ outside b o.
Proof. rewrite <- outsideb_spec. now destruct (outsideb b o). Qed.

Lemma get_data_at {T} (p : parser T) b o m :
  get_data_if (mkField (field_len b o) m (field_off b o)) p b true =
  if field_len b o =? 0 then POk [] None
  else if outsideb b o then PPanic PSlice
  else do (_r, v) <- p (field_data b o); POk [] (Some v).
Proof.
  unfold get_data_if, get_range, outsideb; cbn [f_len f_offset fst snd].
  destruct (field_len b o =? 0) eqn:E; [reflexivity|]. cbn [negb andb].
  destruct (len b <? _) eqn:E2.
  - rewrite slice_panic by lia. reflexivity.
  - rewrite slice_ok by lia. cbn [plift]. unfold field_data.
    replace (field_off b o + field_len b o - field_off b o) with (field_len b o) by lia. reflexivity.
Qed.
Lemma get_many_at {T} (p : parser T) b o m :
  get_many_if (mkField (field_len b o) m (field_off b o)) p b true =
  if field_len b o =? 0 then POk [] []
  else if outsideb b o then PPanic PSlice
  else do (_r, v) <- many0 p (field_data b o); POk [] v.
Proof.
  unfold get_many_if, get_range, outsideb; cbn [f_len f_offset fst snd].
  destruct (field_len b o =? 0) eqn:E; [reflexivity|]. cbn [negb andb].
  destruct (len b <? _) eqn:E2.
  - rewrite slice_panic by lia. reflexivity.
  - rewrite slice_ok by lia. cbn [plift]. unfold field_data.
    replace (field_off b o + field_len b o - field_off b o) with (field_len b o) by lia. reflexivity.
Qed.

(** ** NEGOTIATE *)
Definition negotiate_headerb (b : bytes) : bool :=
  (32 <=? len b) && (beq_bytes (sub b 0 8) NTLMSSP && (u32_at b 8 =? 1))
  && opt_version_ok b (u32_at b 12) 32.
Lemma negotiate_headerb_spec b : negotiate_headerb b = true <-> negotiate_header b.
Proof.
  unfold negotiate_headerb, negotiate_header, is_message.
  rewrite !andb_true_iff, beq_bytes_eq, N.eqb_eq, N.leb_le. tauto.
Qed.

Ltac short_header := rewrite ?andb_false_r; reflexivity.

(** Result of decoding an OEM field. *)
Definition oem_field (b : bytes) (o : N) : pres (option rstring) :=
  if field_len b o =? 0 then POk [] None
  else if outsideb b o then PPanic PSlice
  else match from_utf8 (field_data b o) with
       | Some s => POk [] (Some s)
       | None => PErr EError
       end.
Lemma oem_field_spec b o m :
  get_data_if (mkField (field_len b o) m (field_off b o)) oem_de b true = oem_field b o.
Proof.
  rewrite get_data_at. unfold oem_field.
  destruct (field_len b o =? 0); [reflexivity|]. destruct (outsideb b o); [reflexivity|].
  rewrite oem_de_spec. now destruct (from_utf8 _).
Qed.

Theorem negotiate_de_spec cfg b :
  negotiate_de cfg b =
  if negotiate_headerb b then
    do (_r, d) <- oem_field b 16;
    do (_r, w) <- oem_field b 24;
    POk [] (mkNegotiate (u32_at b 12) d w (opt_version_at b (u32_at b 12) 32))
  else PErr EError.
Proof.
  unfold negotiate_de, negotiate_headerb. rewrite tag_at.
  destruct (beq_bytes (sub b 0 8) NTLMSSP); cbn [pbind andb]; [|short_header].
  rewrite le_u32_verify_at.
  destruct (8 + 4 <=? len b) eqn:E1; cbn [pbind andb];
    [|replace (32 <=? len b) with false by lia; short_header].
  destruct (u32_at b 8 =? 1); cbn [pbind]; [|short_header].
  change (8 + 4) with 12 in *. rewrite flags_de_at. change (12 + 4) with 16.
  destruct (16 <=? len b) eqn:E2; cbn [pbind]; [|replace (32 <=? len b) with false by lia; short_header].
  rewrite field_at. change (16 + 8) with 24.
  destruct (24 <=? len b) eqn:E3; cbn [pbind]; [|replace (32 <=? len b) with false by lia; short_header].
  rewrite field_at. change (24 + 8) with 32.
  destruct (32 <=? len b) eqn:E4; cbn [pbind andb]; [|short_header].
  rewrite cond_version_at by lia.
  destruct (opt_version_ok b (u32_at b 12) 32); cbn [pbind]; [|reflexivity].
  rewrite !orb_true_r, !oem_field_spec. reflexivity.
Qed.

(** ** AV pairs *)
Lemma unicode_consumed cfg v rest k :
  (do (r, s) <- unicode_de v; assert_consumed cfg r (POk rest (k s))) =
  match av_string k v with
  | VOk a => POk rest a
  | VLeft a => if debug cfg then PPanic PDebugAssert else POk rest a
  | VBad => PErr EError
  end.
Proof.
  rewrite unicode_de_spec. cbn [pbind]. unfold assert_consumed, av_string, used_up.
  destruct (is_nil _); cbn [negb]; destruct (debug cfg); reflexivity.
Qed.

Lemma land_low3 w : w < 4294967296 -> (N.land w (not_u32 7) =? 0) = (w <? 8).
Proof.
  intros H. change (not_u32 7) with 4294967288.
  assert (E : N.land w 4294967288 = 8 * (w / 8)).
  { change 4294967288 with (N.shiftl (N.ones 29) 3).
    replace (8 * (w / 8)) with (N.shiftl (N.shiftr w 3) 3)
      by (rewrite N.shiftl_mul_pow2, N.shiftr_div_pow2; change (2 ^ 3) with 8; lia).
    apply N.bits_inj. intros k. rewrite N.land_spec.
    destruct (N.lt_ge_cases k 3) as [Hk|Hk].
    - rewrite !N.shiftl_spec_low by exact Hk. apply andb_false_r.
    - rewrite !N.shiftl_spec_high' by exact Hk. rewrite N.shiftr_spec by lia.
      replace (k - 3 + 3) with k by lia.
      destruct (N.lt_ge_cases (k - 3) 29) as [Hj|Hj].
      + rewrite N.ones_spec_low by exact Hj. apply andb_true_r.
      + rewrite N.ones_spec_high by exact Hj. rewrite andb_false_r.
        symmetry. destruct (N.eq_dec w 0) as [->|Hw]; [apply N.bits_0|].
        apply N.bits_above_log2. apply N.log2_lt_pow2; [lia|].
        apply N.lt_le_trans with (2 ^ 32); [exact H|]. apply N.pow_le_mono_r; lia. }
  rewrite E. lia.
Qed.
Lemma land_pow_testbit w i : negb (N.land w (2 ^ i) =? 0) = N.testbit w i.
Proof. rewrite <- N.shiftl_1_l. apply has_flag_testbit. Qed.

Lemma is_nil_drop k v : k <= len v -> is_nil (drop k v) = (len v =? k).
Proof.
  intros H. pose proof (drop_len k v) as Hl. destruct (drop k v).
  - rewrite len_nil in Hl. cbn. lia.
  - rewrite len_cons in Hl. cbn. lia.
Qed.

Lemma filetime_de_at cfg v k : is_bytes v -> filetime_de cfg (drop k v) =
  if (k + 8 <=? len v) && (negb (windows cfg) || ((u32_at v (k + 4) * 4294967296 + u32_at v k) / 1000000 <=? 910692730085))
  then POk (drop (k + 8) v) (mkFileTime (u32_at v k) (u32_at v (k + 4)))
  else PErr EError.
Proof.
  intros Hb. unfold filetime_de. rewrite le_u32_at.
  destruct (k + 4 <=? len v) eqn:E1; cbn [pbind]; [|replace (k + 8 <=? len v) with false by lia; reflexivity].
  rewrite le_u32_at. replace (k + 4 + 4) with (k + 8) by lia.
  destruct (k + 8 <=? len v) eqn:E2; cbn [pbind andb]; [|reflexivity].
  assert (Hv : valid_filetime (mkFileTime (u32_at v k) (u32_at v (k + 4))))
    by (split; apply u32_at_u32, Hb).
  pose proof (ft_decodable cfg _ Hv) as Hd. unfold decodable_time, filetime_value in Hd. cbn [ft_low ft_high] in Hd.
  destruct (ft_to_system_time cfg _) eqn:E3; destruct (windows cfg) eqn:Ew; cbn [negb orb].
  - destruct (_ <=? 910692730085) eqn:E4; [reflexivity|]. destruct Hd as [Hd _].
    specialize (Hd ltac:(congruence) eq_refl). lia.
  - reflexivity.
  - destruct (_ <=? 910692730085) eqn:E4; [|reflexivity]. destruct Hd as [_ Hd].
    exfalso. apply Hd; [intros _; lia|reflexivity].
  - exfalso. apply Hd; [congruence|reflexivity].
Qed.

Lemma single_host_de_at v k : single_host_de (drop k v) =
  if (k + 48 <=? len v) && (u32_at v (k + 4) =? 0)
  then POk (drop (k + 48) v) (mkSingleHost (u32_at v k) 0 (sub v (k + 8) 8) (sub v (k + 16) 32))
  else PErr EError.
Proof.
  unfold single_host_de. rewrite le_u32_at.
  destruct (k + 4 <=? len v) eqn:E1; cbn [pbind]; [|replace (k + 48 <=? len v) with false by lia; reflexivity].
  rewrite le_u32_verify_at. replace (k + 4 + 4) with (k + 8) by lia.
  destruct (k + 8 <=? len v) eqn:E2; cbn [pbind andb]; [|replace (k + 48 <=? len v) with false by lia; reflexivity].
  destruct (u32_at v (k + 4) =? 0); cbn [pbind]; [|now rewrite andb_false_r].
  rewrite take_at. change (N.of_nat 8) with 8. replace (k + 8 + 8) with (k + 16) by lia.
  destruct (k + 16 <=? len v) eqn:E3; cbn [pbind N.eqb]; [|replace (k + 48 <=? len v) with false by lia; reflexivity].
  rewrite take_at. change (N.of_nat 32) with 32. replace (k + 16 + 32) with (k + 48) by lia.
  destruct (k + 48 <=? len v) eqn:E4; reflexivity.
Qed.

Lemma consumed_used {A} cfg (r : bytes) rest (a : A) (av : A -> av_pair) :
  assert_consumed cfg r (POk rest (av a)) =
  match used_up r (av a) with
  | VOk a => POk rest a
  | VLeft a => if debug cfg then PPanic PDebugAssert else POk rest a
  | VBad => PErr EError
  end.
Proof. unfold assert_consumed, used_up. destruct (is_nil r), (debug cfg); reflexivity. Qed.

Lemma av_id_of_some n : n <= 10 -> exists i, av_id_of n = Some i.
Proof.
  intros H. destruct n as [|p]; [eexists; reflexivity|].
  do 4 (destruct p as [p|p|]; try (eexists; reflexivity); try lia).
Qed.

Lemma av_pair_de_at cfg b : is_bytes b -> 4 <= len b -> u16_at b 0 <= 10 ->
  av_pair_de cfg b =
  if len b <? 4 + u16_at b 2 then PErr (EIncomplete (4 + u16_at b 2 - len b))
  else match av_content_of cfg (u16_at b 0) (sub b 4 (u16_at b 2)) with
       | VOk a => POk (drop (4 + u16_at b 2) b) a
       | VLeft a => if debug cfg then PPanic PDebugAssert else POk (drop (4 + u16_at b 2) b) a
       | VBad => PErr EError
       end.
Proof.
  intros Hb Hl Hid. unfold av_pair_de, av_id_de, map_opt, length_data.
  rewrite <- (drop_0 b) at 1. rewrite le_u16_at. replace (0 + 2 <=? len b) with true by lia. cbn [pbind].
  destruct (av_id_of_some _ Hid) as [i Hi]. rewrite Hi. cbn [pbind].
  change (0 + 2) with 2. rewrite le_u16_at. replace (2 + 2 <=? len b) with true by lia. cbn [pbind].
  change (2 + 2) with 4. rewrite drop_len.
  replace (len b - 4 <? u16_at b 2) with (len b <? 4 + u16_at b 2) by lia.
  destruct (len b <? 4 + u16_at b 2) eqn:E.
  { cbn [pbind]. f_equal. f_equal. lia. }
  cbn [pbind].
  change (firstn (N.to_nat (u16_at b 2)) (drop 4 b)) with (sub b 4 (u16_at b 2)).
  replace (skipn (N.to_nat (u16_at b 2)) (drop 4 b)) with (drop (4 + u16_at b 2) b)
    by (now rewrite <- drop_drop).
  assert (Hv : is_bytes (sub b 4 (u16_at b 2))) by now apply sub_bytes.
  set (v := sub b 4 (u16_at b 2)) in *. set (rest := drop (4 + u16_at b 2) b).
  apply av_id_of_code in Hi. rewrite <- Hi. clear Hi.
  destruct i; cbn [av_id_code av_content_of]; try apply unicode_consumed.
  - replace (len v =? 0) with (is_nil v) by (rewrite <- (drop_0 v) at 1; apply is_nil_drop; lia).
    destruct (is_nil v); reflexivity.
  - unfold av_flags_de, verify. rewrite <- (drop_0 v) at 1. rewrite le_u32_at. change (0 + 4) with 4.
    destruct (4 <=? len v) eqn:E4; cbn [pbind andb]; [|reflexivity].
    rewrite land_low3 by now apply u32_at_u32.
    destruct (u32_at v 0 <? 8); cbn [pbind]; [|reflexivity].
    rewrite consumed_used.
    change (N.land (u32_at v 0) 1) with (N.land (u32_at v 0) (2 ^ 0)).
    change (N.land (u32_at v 0) 2) with (N.land (u32_at v 0) (2 ^ 1)).
    change (N.land (u32_at v 0) 4) with (N.land (u32_at v 0) (2 ^ 2)).
    rewrite !land_pow_testbit. reflexivity.
  - rewrite <- (drop_0 v) at 1. rewrite filetime_de_at by exact Hv. change (0 + 8) with 8. change (0 + 4) with 4.
    destruct (_ && _); cbn [pbind]; [|reflexivity]. apply consumed_used.
  - rewrite <- (drop_0 v) at 1. rewrite single_host_de_at. change (0 + 48) with 48. change (0 + 4) with 4.
    change (0 + 8) with 8. change (0 + 16) with 16.
    destruct (_ && _); cbn [pbind]; [|reflexivity]. apply consumed_used.
  - rewrite <- (drop_0 v) at 1. rewrite take_at. change (0 + N.of_nat 16) with 16.
    destruct (16 <=? len v); cbn [pbind N.of_nat N.eqb]; [|reflexivity].
    change (N.pos (Pos.of_succ_nat 15)) with 16. apply consumed_used.
Qed.

(** Parse result a walk stands for. *)
Definition walk_agrees (r : pres (list av_pair)) (w : av_walk_result) : Prop :=
  match w with
  | WList l rest => r = POk rest l
  | WReject => exists n, r = PErr (EIncomplete n)
  | WPanic => r = PPanic PDebugAssert
  end.
Lemma many0_walk cfg b w : is_bytes b -> av_walk cfg b w ->
  forall fuel, (length b < fuel)%nat -> walk_agrees (many0_go fuel (av_pair_de cfg) b) w.
Proof.
  intros Hb Hw. induction Hw as [b Hs|b H1 H2 H3|b H1 H2 H3 H4|b a H1 H2 H3 H4 H5|b a w H1 H2 H3 H4 Hw IH];
    intros fuel Hf; (destruct fuel as [|fuel]; [lia|]); cbn [many0_go].
  - rewrite av_pair_de_stop by (unfold len in Hs; lia). reflexivity.
  - rewrite av_pair_de_at by assumption. replace (len b <? 4 + u16_at b 2) with true by lia.
    eexists. reflexivity.
  - rewrite av_pair_de_at by assumption. replace (len b <? 4 + u16_at b 2) with false by lia.
    rewrite H4. reflexivity.
  - rewrite av_pair_de_at by assumption. replace (len b <? 4 + u16_at b 2) with false by lia.
    rewrite H4, H5. reflexivity.
  - rewrite av_pair_de_at by assumption. replace (len b <? 4 + u16_at b 2) with false by lia.
    assert (E : match av_content_of cfg (u16_at b 0) (sub b 4 (u16_at b 2)) with
       | VOk a => POk (drop (4 + u16_at b 2) b) a
       | VLeft a => if debug cfg then PPanic PDebugAssert else POk (drop (4 + u16_at b 2) b) a
       | VBad => PErr EError
       end = POk (drop (4 + u16_at b 2) b) a).
    { destruct H4 as [->|[-> ->]]; reflexivity. }
    rewrite E. change (skipn (N.to_nat (4 + u16_at b 2)) b) with (drop (4 + u16_at b 2) b) in *.
    pose proof (drop_len (4 + u16_at b 2) b) as Hl. unfold len in *.
    destruct (length (drop (4 + u16_at b 2) b) =? length b)%nat eqn:El; [lia|].
    specialize (IH (drop_bytes _ _ Hb) fuel ltac:(lia)).
    destruct w; cbn [wcons walk_agrees] in *.
    + rewrite IH. reflexivity.
    + destruct IH as [n ->]. exists n. reflexivity.
    + rewrite IH. reflexivity.
Qed.
Lemma walk_total cfg b : exists w, av_walk cfg b w.
Proof.
  enough (H : forall n b, (length b <= n)%nat -> exists w, av_walk cfg b w) by eauto.
  clear b. induction n as [|n IH]; intros b Hn.
  - eexists. apply walk_stop. left. unfold len. lia.
  - destruct (N.lt_ge_cases (len b) 4) as [H1|H1]; [eexists; apply walk_stop; now left|].
    destruct (N.lt_ge_cases 10 (u16_at b 0)) as [H2|H2]; [eexists; apply walk_stop; now right|].
    destruct (N.lt_ge_cases (len b) (4 + u16_at b 2)) as [H3|H3]; [eexists; now apply walk_reject|].
    destruct (IH (skipn (N.to_nat (4 + u16_at b 2)) b)) as [w Hw].
    { rewrite skipn_length. lia. }
    destruct (av_content_of cfg (u16_at b 0) (sub b 4 (u16_at b 2))) as [a|a|] eqn:E.
    + eexists. eapply walk_next; eauto.
    + destruct (debug cfg) eqn:D.
      * eexists. eapply walk_left; eauto.
      * eexists. eapply walk_next; eauto.
    + eexists. now apply walk_bad.
Qed.
Lemma many0_agrees cfg b w : is_bytes b -> av_walk cfg b w -> walk_agrees (many0 (av_pair_de cfg) b) w.
Proof. intros Hb Hw. apply many0_walk; auto. Qed.
Lemma walk_fun cfg b w1 w2 : is_bytes b -> av_walk cfg b w1 -> av_walk cfg b w2 -> w1 = w2.
Proof.
  intros Hb H1 H2. apply many0_agrees in H1; auto. apply many0_agrees in H2; auto.
  destruct w1, w2; cbn in *; try congruence; try (destruct H1; congruence); try (destruct H2; congruence).
Qed.
Lemma walk_release cfg b w : debug cfg = false -> av_walk cfg b w -> w <> WPanic.
Proof.
  intros D H. induction H; try discriminate; try congruence.
  destruct w; cbn; congruence.
Qed.

(** ** CHALLENGE *)
Definition challenge_headerb (cfg : config) (b : bytes) : bool :=
  (48 <=? len b) && (beq_bytes (sub b 0 8) NTLMSSP && (u32_at b 8 =? 2))
  && opt_version_ok b (u32_at b 20) 48
  && (negb (strict cfg) || beq_bytes (sub b 32 8) [0; 0; 0; 0; 0; 0; 0; 0]).
Lemma challenge_headerb_spec cfg b : challenge_headerb cfg b = true <-> challenge_header cfg b.
Proof.
  unfold challenge_headerb, challenge_header, is_message.
  rewrite !andb_true_iff, orb_true_iff, negb_true_iff, !beq_bytes_eq, N.eqb_eq, N.leb_le.
  destruct (strict cfg); intuition (auto; congruence).
Qed.

Lemma le_dec_zero b : le_dec b = 0 -> b = zeros (length b).
Proof.
  induction b as [|x b IH]; [reflexivity|]. cbn [le_dec length zeros repeat]. intros H.
  f_equal; [lia|]. apply IH. lia.
Qed.
Lemma le_dec_zeros n : le_dec (zeros n) = 0.
Proof. induction n; [reflexivity|]. cbn [zeros repeat le_dec]. unfold zeros in IHn. rewrite IHn. reflexivity. Qed.
Lemma parse_reserved_at cfg b : 
  parse_reserved cfg (drop 32 b) =
  if (40 <=? len b) && (negb (strict cfg) || beq_bytes (sub b 32 8) [0; 0; 0; 0; 0; 0; 0; 0])
  then POk (drop 40 b) (le_dec (sub b 32 8)) else PErr EError.
Proof.
  assert (E : le_u64 (drop 32 b) = if 40 <=? len b then POk (drop 40 b) (le_dec (sub b 32 8)) else PErr EError).
  { unfold le_u64, le_uint. rewrite take_at. change (32 + N.of_nat 8) with 40.
    change (N.of_nat 8) with 8. change (8 =? 0) with false. now destruct (40 <=? len b). }
  unfold parse_reserved. destruct (strict cfg); cbn [negb orb].
  2:{ rewrite E, andb_true_r. reflexivity. }
  unfold verify. rewrite E. destruct (40 <=? len b) eqn:E1; cbn [pbind andb]; [|reflexivity].
  destruct (beq_bytes _ _) eqn:E2.
  - apply beq_bytes_eq in E2. rewrite E2. reflexivity.
  - destruct (le_dec (sub b 32 8) =? 0) eqn:E3; [|reflexivity].
    apply N.eqb_eq, le_dec_zero in E3.
    assert (Hl : length (sub b 32 8) = 8%nat) by (pose proof (sub_len b 32 8); unfold len in *; lia).
    rewrite Hl in E3. rewrite E3 in E2. discriminate E2.
Qed.

(** Result of decoding a UTF-16 field. *)
Definition unicode_field (b : bytes) (o : N) : pres (option rstring) :=
  if field_len b o =? 0 then POk [] None
  else if outsideb b o then PPanic PSlice
  else POk [] (Some (fst (read_utf16 (field_data b o)))).
Lemma unicode_field_spec b o m :
  get_data_if (mkField (field_len b o) m (field_off b o)) unicode_de b true = unicode_field b o.
Proof.
  rewrite get_data_at. unfold unicode_field.
  destruct (field_len b o =? 0); [reflexivity|]. destruct (outsideb b o); [reflexivity|].
  rewrite unicode_de_spec. reflexivity.
Qed.
Definition infos_field (cfg : config) (b : bytes) (o : N) : pres (list av_pair) :=
  if field_len b o =? 0 then POk [] []
  else if outsideb b o then PPanic PSlice
  else do (_r, v) <- many0 (av_pair_de cfg) (field_data b o); POk [] v.

Theorem challenge_de_spec cfg b :
  challenge_de cfg b =
  if challenge_headerb cfg b then
    do (_r, t) <- unicode_field b 12;
    do (_r, l) <- infos_field cfg b 40;
    if last_is_not_eol l then PErr EError
    else POk [] (mkChallenge t (u32_at b 20) (sub b 24 8) l (opt_version_at b (u32_at b 20) 48))
  else PErr EError.
Proof.
  unfold challenge_de, challenge_headerb. rewrite tag_at.
  destruct (beq_bytes (sub b 0 8) NTLMSSP); cbn [pbind andb]; [|short_header].
  rewrite le_u32_verify_at.
  destruct (8 + 4 <=? len b) eqn:E1; cbn [pbind andb];
    [|replace (48 <=? len b) with false by lia; short_header].
  destruct (u32_at b 8 =? 2); cbn [pbind]; [|short_header].
  change (8 + 4) with 12 in *. rewrite field_at. change (12 + 8) with 20.
  destruct (20 <=? len b) eqn:E2; cbn [pbind]; [|replace (48 <=? len b) with false by lia; short_header].
  rewrite flags_de_at. change (20 + 4) with 24.
  destruct (24 <=? len b) eqn:E3; cbn [pbind]; [|replace (48 <=? len b) with false by lia; short_header].
  unfold buf_de. rewrite take_at. change (24 + N.of_nat 8) with 32. change (N.of_nat 8) with 8. change (8 =? 0) with false.
  destruct (32 <=? len b) eqn:E4; cbn [pbind]; [|replace (48 <=? len b) with false by lia; short_header].
  rewrite parse_reserved_at.
  destruct (40 <=? len b) eqn:E5; cbn [pbind andb]; [|replace (48 <=? len b) with false by lia; short_header].
  destruct (negb (strict cfg) || _); cbn [pbind]; [|short_header]. rewrite andb_true_r.
  rewrite field_at. change (40 + 8) with 48.
  destruct (48 <=? len b) eqn:E6; cbn [pbind andb]; [|short_header].
  rewrite cond_version_at by lia.
  destruct (opt_version_ok b (u32_at b 20) 48); cbn [pbind]; [|reflexivity].
  rewrite orb_true_r, unicode_field_spec, get_many_at. fold (infos_field cfg b 40).
  destruct (unicode_field b 12) as [r t| |]; cbn [pbind]; try reflexivity.
  destruct (infos_field cfg b 40) as [r' l| |] eqn:Ei; cbn [pbind]; try reflexivity.
  destruct (last_is_not_eol l) eqn:El; [|reflexivity].
  unfold get_range; cbn [f_len f_offset fst snd].
  unfold infos_field in Ei. destruct (field_len b 40 =? 0) eqn:E7.
  { injection Ei as <- <-. discriminate El. }
  unfold outsideb in Ei. rewrite E7 in Ei. cbn [negb andb] in Ei.
  destruct (len b <? field_off b 40 + field_len b 40) eqn:E8; [discriminate|].
  rewrite slice_ok by lia. reflexivity.
Qed.

(** ** AUTHENTICATE *)
Definition authenticate_headerb (b : bytes) : bool :=
  (64 <=? len b) && (beq_bytes (sub b 0 8) NTLMSSP && (u32_at b 8 =? 3))
  && opt_version_ok b (u32_at b 60) 64 && (authenticate_mic_off b + 16 <=? len b).
Lemma authenticate_headerb_spec b : authenticate_headerb b = true <-> authenticate_header b.
Proof.
  unfold authenticate_headerb, authenticate_header, is_message.
  rewrite !andb_true_iff, beq_bytes_eq, N.eqb_eq, !N.leb_le. tauto.
Qed.

(** LM response field: dropped when too short. *)
Definition lm_field (b : bytes) (o : N) (v1 : bool) : pres (option lm_challenge) :=
  if field_len b o =? 0 then POk [] None
  else if outsideb b o then PPanic PSlice
  else if field_len b o <? 24 then POk [] None
  else POk [] (Some (if v1 then LmV1 (sub b (field_off b o) 24)
                     else LmV2 (sub b (field_off b o) 16) (sub b (field_off b o + 16) 8))).
Lemma field_data_len b o : outsideb b o = false -> field_len b o <> 0 -> len (field_data b o) = field_len b o.
Proof. unfold outsideb, field_data. intros H1 H2. apply sub_len. lia. Qed.
Lemma sub_sub b o n i k : i + k <= n -> sub (sub b o n) i k = sub b (o + i) k.
Proof.
  intros H. rewrite (sub_drop b o n). unfold sub at 1.
  rewrite skipn_firstn_comm, firstn_firstn.
  replace (Nat.min (N.to_nat k) (N.to_nat n - N.to_nat i)) with (N.to_nat k) by lia.
  change (skipn (N.to_nat i) (drop o b)) with (drop i (drop o b)).
  rewrite drop_drop. reflexivity.
Qed.
Lemma lm_field_spec b o m (v1 : bool) :
  (if v1 then ok_flatten (get_data_if (mkField (field_len b o) m (field_off b o)) lmv1_de b true)
   else ok_flatten (get_data_if (mkField (field_len b o) m (field_off b o)) lmv2_de b true))
  = lm_field b o v1.
Proof.
  rewrite !get_data_at. unfold lm_field.
  destruct (field_len b o =? 0) eqn:E; [now destruct v1|]. destruct (outsideb b o) eqn:Eo; [now destruct v1|].
  pose proof (field_data_len b o Eo ltac:(lia)) as Hl.
  destruct v1.
  - unfold lmv1_de, pmap, buf_de. rewrite <- (drop_0 (field_data b o)), take_at.
    change (0 + N.of_nat 24) with 24. change (N.of_nat 24) with 24. change (24 =? 0) with false.
    rewrite Hl. destruct (field_len b o <? 24) eqn:E2.
    + replace (24 <=? field_len b o) with false by lia. reflexivity.
    + replace (24 <=? field_len b o) with true by lia. cbn [pbind ok_flatten].
      unfold field_data. rewrite sub_sub by lia. rewrite N.add_0_r. reflexivity.
  - unfold lmv2_de, buf_de. rewrite <- (drop_0 (field_data b o)), take_at.
    change (0 + N.of_nat 16) with 16. change (N.of_nat 16) with 16. change (16 =? 0) with false.
    rewrite Hl. destruct (16 <=? field_len b o) eqn:E3; cbn [pbind].
    + rewrite take_at. change (16 + N.of_nat 8) with 24. change (N.of_nat 8) with 8. change (8 =? 0) with false.
      rewrite Hl. destruct (field_len b o <? 24) eqn:E2.
      * replace (24 <=? field_len b o) with false by lia. reflexivity.
      * replace (24 <=? field_len b o) with true by lia. cbn [pbind ok_flatten].
        unfold field_data. rewrite !sub_sub by lia. rewrite N.add_0_r. reflexivity.
    + replace (field_len b o <? 24) with true by lia. reflexivity.
Qed.

Definition nt_field (cfg : config) (b : bytes) (o : N) : pres (option nt_challenge) :=
  if field_len b o =? 0 then POk [] None
  else if outsideb b o then PPanic PSlice
  else do (_r, v) <- nt_challenge_de cfg (field_data b o); POk [] (Some v).
Definition key_field_res (b : bytes) (o : N) (c : bool) : pres (option bytes) :=
  if c then
    if field_len b o =? 0 then POk [] None
    else if outsideb b o then PPanic PSlice
    else if field_len b o <? 16 then PErr EError
    else POk [] (Some (sub b (field_off b o) 16))
  else POk [] None.
Lemma key_field_spec b o m c :
  get_data_if (mkField (field_len b o) m (field_off b o)) (buf_de 16) b c = key_field_res b o c.
Proof.
  unfold key_field_res. destruct c; [|reflexivity]. rewrite get_data_at.
  destruct (field_len b o =? 0) eqn:E; [reflexivity|]. destruct (outsideb b o) eqn:Eo; [reflexivity|].
  pose proof (field_data_len b o Eo ltac:(lia)) as Hl.
  unfold buf_de. rewrite <- (drop_0 (field_data b o)), take_at.
  change (0 + N.of_nat 16) with 16. change (N.of_nat 16) with 16. change (16 =? 0) with false.
  rewrite Hl. destruct (field_len b o <? 16) eqn:E2.
  - replace (16 <=? field_len b o) with false by lia. reflexivity.
  - replace (16 <=? field_len b o) with true by lia. cbn [pbind].
    unfold field_data. rewrite sub_sub by lia. rewrite N.add_0_r. reflexivity.
Qed.

(** NT responses *)
Definition nt_agrees (r : pres nt_challenge) (w : nt_field_result) : Prop :=
  match w with
  | NtOk c => exists rest, r = POk rest c
  | NtReject => exists e, r = PErr e
  | NtPanic => r = PPanic PDebugAssert
  end.
Lemma sub_cons_eq b k n x l : k < len b -> (sub b k (1 + n) = x :: l <-> byte_at b k = x /\ sub b (k + 1) n = l).
Proof. intros H. rewrite sub_S by exact H. split; [intros E; injection E; auto|intros [-> ->]; reflexivity]. Qed.
Lemma ntv2_head_bytes v : 28 <= len v ->
  beq_bytes (sub v 0 8) [1; 1; 0; 0; 0; 0; 0; 0] =
  (byte_at v 0 =? 1) && (byte_at v 1 =? 1) && (u16_at v 2 =? 0) && (u32_at v 4 =? 0).
Proof.
  intros H. apply eq_true_iff_eq. rewrite beq_bytes_eq, !andb_true_iff, !N.eqb_eq.
  change 8 with (1 + (1 + (1 + (1 + (1 + (1 + (1 + (1 + 0)))))))).
  rewrite !sub_cons_eq by lia. unfold u32_at, u16_at.
  repeat match goal with |- context [byte_at v ?k] =>
    match k with context [_ + _] => let k' := eval compute in k in change k with k' end end.
  rewrite sub_0. intuition lia.
Qed.
Lemma verify_u8_at v k x : verify le_u8 (fun b => b =? x) (drop k v) =
  if (k + 1 <=? len v) && (byte_at v k =? x) then POk (drop (k + 1) v) x else PErr EError.
Proof.
  unfold verify. rewrite le_u8_at. destruct (_ <=? _); [|reflexivity]. cbn [pbind andb].
  destruct (byte_at v k =? x) eqn:E; [|reflexivity]. apply N.eqb_eq in E. now rewrite E.
Qed.
Lemma verify_u16_at v k x : verify le_u16 (fun b => b =? x) (drop k v) =
  if (k + 2 <=? len v) && (u16_at v k =? x) then POk (drop (k + 2) v) x else PErr EError.
Proof.
  unfold verify. rewrite le_u16_at. destruct (_ <=? _); [|reflexivity]. cbn [pbind andb].
  destruct (u16_at v k =? x) eqn:E; [|reflexivity]. apply N.eqb_eq in E. now rewrite E.
Qed.
Lemma ntv2_de_at cfg v : is_bytes v -> ntv2_de cfg v =
  if ntv2_header cfg v then
    do (r, l) <- many0 (av_pair_de cfg) (drop 28 v);
    POk r (mkNtv2 (mkFileTime (u32_at v 8) (u32_at v 12)) (sub v 16 8) l)
  else PErr EError.
Proof.
  intros Hb. destruct (28 <=? len v) eqn:E28.
  2:{ rewrite ntv2_de_short by (unfold len in E28; lia). unfold ntv2_header. now rewrite E28. }
  unfold ntv2_header. rewrite E28, ntv2_head_bytes by lia. cbn [andb].
  unfold ntv2_de. rewrite <- (drop_0 v) at 1. rewrite verify_u8_at.
  replace (0 + 1 <=? len v) with true by lia. cbn [andb].
  destruct (byte_at v 0 =? 1); cbn [pbind andb]; [|reflexivity]. change (0 + 1) with 1.
  rewrite verify_u8_at. replace (1 + 1 <=? len v) with true by lia. cbn [andb].
  destruct (byte_at v 1 =? 1); cbn [pbind andb]; [|reflexivity]. change (1 + 1) with 2.
  rewrite verify_u16_at. replace (2 + 2 <=? len v) with true by lia. cbn [andb].
  destruct (u16_at v 2 =? 0); cbn [pbind andb]; [|reflexivity]. change (2 + 2) with 4.
  rewrite le_u32_verify_at. replace (4 + 4 <=? len v) with true by lia. cbn [andb].
  destruct (u32_at v 4 =? 0); cbn [pbind andb]; [|reflexivity]. change (4 + 4) with 8.
  rewrite filetime_de_at by exact Hb. replace (8 + 8 <=? len v) with true by lia. cbn [andb].
  change (8 + 4) with 12. change (8 + 8) with 16.
  destruct (negb (windows cfg) || _); cbn [pbind andb]; [|reflexivity].
  unfold buf_de. rewrite take_at. change (16 + N.of_nat 8) with 24. change (N.of_nat 8) with 8.
  replace (24 <=? len v) with true by lia. cbn [pbind].
  rewrite le_u32_verify_at. replace (24 + 4 <=? len v) with true by lia. cbn [andb].
  destruct (u32_at v 24 =? 0); cbn [pbind]; reflexivity.
Qed.
Lemma nt_agree cfg v w : is_bytes v -> nt_read cfg v w -> nt_agrees (nt_challenge_de cfg v) w.
Proof.
  intros Hb Hr. unfold nt_challenge_de, alt2, pmap. rewrite ntv2_de_at by exact Hb.
  change (skipn 28 v) with (drop 28 v) in Hr.
  destruct Hr as [l r H Hw|H Hw|H Hw|H Hl|H Hl]; rewrite H; cbn [pbind];
    try (apply many0_agrees in Hw; [|apply is_bytes_skipn, Hb]; cbn [walk_agrees] in Hw).
  - change (skipn 28 v) with (drop 28 v) in Hw. rewrite Hw. cbn [pbind]. eexists. reflexivity.
  - destruct Hw as [n Hw]. change (skipn 28 v) with (drop 28 v) in Hw. rewrite Hw. cbn. eexists. reflexivity.
  - change (skipn 28 v) with (drop 28 v) in Hw. rewrite Hw. reflexivity.
  - unfold ntv1_de, pmap, buf_de. rewrite <- (drop_0 v), take_at.
    change (0 + N.of_nat 24) with 24. rewrite drop_0. replace (24 <=? len v) with true by lia. cbn [pbind].
    eexists. reflexivity.
  - unfold ntv1_de, pmap, buf_de. rewrite <- (drop_0 v), take_at.
    change (0 + N.of_nat 24) with 24. rewrite drop_0. replace (24 <=? len v) with false by lia. cbn. eexists. reflexivity.
Qed.
Lemma nt_total cfg v : exists w, nt_read cfg v w.
Proof.
  destruct (ntv2_header cfg v) eqn:E.
  - destruct (walk_total cfg (skipn 28 v)) as [[l r| |] Hw]; eexists.
    + eapply nt_v2; eauto.
    + now apply nt_v2_reject.
    + now apply nt_v2_panic.
  - destruct (N.lt_ge_cases (len v) 24); eexists; [now apply nt_short|now apply nt_v1].
Qed.
Lemma nt_fun cfg v w1 w2 : is_bytes v -> nt_read cfg v w1 -> nt_read cfg v w2 -> w1 = w2.
Proof.
  intros Hb H1 H2. apply nt_agree in H1; auto. apply nt_agree in H2; auto.
  destruct w1, w2; cbn in *; try congruence; try (destruct H1; congruence); try (destruct H2; congruence);
   destruct H1, H2; congruence.
Qed.

Definition authenticate_body (cfg : config) (b : bytes) : pres authenticate :=
  let fl := u32_at b 60 in
  do (_r, lm) <- lm_field b 12 (N.testbit fl 9);
  do (_r, nt) <- nt_field cfg b 20;
  do (_r, d) <- unicode_field b 28;
  do (_r, u) <- unicode_field b 36;
  do (_r, w) <- unicode_field b 44;
  do (_r, k) <- key_field_res b 52 (N.testbit fl 30);
  POk [] (mkAuthenticate lm nt d u w k fl (opt_version_at b fl 64) (sub b (authenticate_mic_off b) 16) None).

Theorem authenticate_de_spec cfg b :
  authenticate_de cfg b = if authenticate_headerb b then authenticate_body cfg b else PErr EError.
Proof.
  unfold authenticate_de, authenticate_headerb. rewrite tag_at.
  destruct (beq_bytes (sub b 0 8) NTLMSSP); cbn [pbind andb]; [|short_header].
  rewrite le_u32_verify_at.
  destruct (8 + 4 <=? len b) eqn:E1; cbn [pbind andb];
    [|replace (64 <=? len b) with false by lia; short_header].
  destruct (u32_at b 8 =? 3); cbn [pbind]; [|short_header].
  change (8 + 4) with 12 in *. rewrite field_at. change (12 + 8) with 20.
  destruct (20 <=? len b) eqn:E2; cbn [pbind]; [|replace (64 <=? len b) with false by lia; short_header].
  rewrite field_at. change (20 + 8) with 28.
  destruct (28 <=? len b) eqn:E3; cbn [pbind]; [|replace (64 <=? len b) with false by lia; short_header].
  rewrite field_at. change (28 + 8) with 36.
  destruct (36 <=? len b) eqn:E4; cbn [pbind]; [|replace (64 <=? len b) with false by lia; short_header].
  rewrite field_at. change (36 + 8) with 44.
  destruct (44 <=? len b) eqn:E5; cbn [pbind]; [|replace (64 <=? len b) with false by lia; short_header].
  rewrite field_at. change (44 + 8) with 52.
  destruct (52 <=? len b) eqn:E6; cbn [pbind]; [|replace (64 <=? len b) with false by lia; short_header].
  rewrite field_at. change (52 + 8) with 60.
  destruct (60 <=? len b) eqn:E7; cbn [pbind]; [|replace (64 <=? len b) with false by lia; short_header].
  rewrite flags_de_at. change (60 + 4) with 64.
  destruct (64 <=? len b) eqn:E8; cbn [pbind andb]; [|short_header].
  rewrite cond_version_at by lia.
  destruct (opt_version_ok b (u32_at b 60) 64); cbn [pbind andb]; [|reflexivity].
  change (64 + 8) with 72. fold (authenticate_mic_off b).
  unfold buf_de at 1. rewrite take_at. change (N.of_nat 16) with 16. change (16 =? 0) with false.
  destruct (authenticate_mic_off b + 16 <=? len b); cbn [pbind]; [|reflexivity].
  rewrite !has_flag_testbit, lm_field_spec. change NTLMSSP_NEGOTIATE_NTLM with 9. change NTLMSSP_NEGOTIATE_KEY_EXCH with 30.
  unfold authenticate_body.
  destruct (lm_field b 12 (N.testbit (u32_at b 60) 9)) as [r lm| |]; cbn [pbind]; try reflexivity.
  rewrite get_data_at. fold (nt_field cfg b 20).
  destruct (nt_field cfg b 20) as [r1 nt| |]; cbn [pbind]; try reflexivity.
  rewrite !unicode_field_spec, key_field_spec. reflexivity.
Qed.
