(** The decoders report the first failing check of SpecErrors.v. *)
From Coq Require Import Ascii String.
From Verif Require Import Base Nom Unicode Wire Structures Messages Errors Spec SpecErrors Lib Decode Parse ErrorsLib.

Notation V := verbose_error.

(** [r] is the report of the checks, or [k] if none fails *)
Definition judge {A} (b : bytes) (r : eres (err V) A) (cs : list check) (k : eres (err V) A) : Prop :=
  r = match report b cs with Some e => XErr e | None => k end.

Lemma report_app b cs cs' :
  report b (cs ++ cs') = match report b cs with Some e => Some e | None => report b cs' end.
Proof. induction cs as [|c cs IH]; [reflexivity|]. cbn. now destruct (failure b c). Qed.
Lemma report_inside b n o cs :
  report b (inside n o cs) = match report b cs with
                             | Some e => Some (e ++ [(from b o, Context n)])
                             | None => None
                             end.
Proof.
  induction cs as [|c cs IH]; [reflexivity|]. cbn [inside map report].
  change (failure b (mkCheck _ _ _ _ _ _)) with (failure b c).
  destruct (failure b c); [|exact IH]. cbn [c_at c_inside]. now rewrite map_app.
Qed.
Lemma judge_bind {A B} b r i a (f : bytes -> A -> eres (err V) B) cs cs' k :
  judge b r cs (XOk i a) -> judge b (f i a) cs' k -> judge b (xbind r f) (cs ++ cs') k.
Proof. unfold judge. intros -> H. rewrite report_app. now destruct (report b cs). Qed.
Lemma judge_last {A B} b r i a (f : bytes -> A -> eres (err V) B) cs k :
  judge b r cs (XOk i a) -> f i a = k -> judge b (xbind r f) cs k.
Proof. unfold judge. intros -> <-. now destruct (report b cs). Qed.
Lemma judge_context {A} b n o (p : eparser V A) cs i a :
  judge b (p (drop o b)) cs (XOk i a) -> judge b (context V n p (drop o b)) (inside n o cs) (XOk i a).
Proof. unfold judge, context. intros ->. rewrite report_inside. now destruct (report b cs). Qed.
Lemma judge_context_ok {A} b n o (p : eparser V A) cs k :
  judge b (p (drop o b)) cs k -> (forall e, k <> XErr e) ->
  judge b (context V n p (drop o b)) (inside n o cs) k.
Proof.
  unfold judge, context. intros -> H. rewrite report_inside. destruct (report b cs); [reflexivity|].
  destruct k; try reflexivity. now destruct (H e).
Qed.

Lemma le_dec_u16 b o : le_dec (sub b o 2) = u16_at b o.
Proof.
  unfold u16_at. rewrite <- (N.add_0_r o) at 2. rewrite <- !byte_at_drop, sub_drop.
  change (N.to_nat 2) with 2%nat. unfold byte_at. change (N.to_nat 0) with 0%nat. change (N.to_nat 1) with 1%nat.
  destruct (drop o b) as [|x [|y l]]; cbn; lia.
Qed.
Lemma le_dec_u32 b o : le_dec (sub b o 4) = u32_at b o.
Proof.
  unfold u32_at. rewrite <- (N.add_0_r o) at 2. rewrite <- !u16_at_drop, sub_drop.
  change (N.to_nat 4) with 4%nat. unfold u16_at, byte_at.
  change (N.to_nat 0) with 0%nat. change (N.to_nat (0 + 1)) with 1%nat.
  change (N.to_nat 2) with 2%nat. change (N.to_nat (2 + 1)) with 3%nat.
  destruct (drop o b) as [|x [|y [|z [|t l]]]]; cbn [firstn le_dec nth]; lia.
Qed.
Lemma le_dec_u8 b o : le_dec (sub b o 1) = byte_at b o.
Proof.
  rewrite <- (N.add_0_r o) at 2. rewrite <- !byte_at_drop, sub_drop.
  change (N.to_nat 1) with 1%nat. unfold byte_at. change (N.to_nat 0) with 0%nat.
  destruct (drop o b) as [|x l]; cbn; lia.
Qed.

Lemma take_judge b o n : 0 < N.of_nat n ->
  judge b (x_take V n (drop o b)) [present o (N.of_nat n)] (XOk (drop (o + N.of_nat n) b) (sub b o (N.of_nat n))).
Proof.
  intros Hn. unfold judge, x_take, report, failure, present. cbn [c_at c_width c_short c_good c_bad c_inside map].
  pose proof (drop_len o b) as L. unfold len in *.
  destruct (N.of_nat (length b) <? o + N.of_nat n) eqn:E.
  - replace (length (drop o b) <? n)%nat with true by lia. reflexivity.
  - replace (length (drop o b) <? n)%nat with false by lia. f_equal.
    + unfold drop. rewrite skipn_skipn. f_equal. lia.
    + rewrite sub_drop. f_equal. lia.
Qed.
Lemma uint_judge b o n : (0 < n)%nat ->
  judge b (x_uint V n (drop o b)) [present o (N.of_nat n)] (XOk (drop (o + N.of_nat n) b) (le_dec (sub b o (N.of_nat n)))).
Proof. intros H. unfold x_uint. eapply judge_last; [apply take_judge; lia|reflexivity]. Qed.
(** a verified number: the check is on its value *)
Lemma verify_judge b o n (f : N -> bool) g : (0 < n)%nat -> f (le_dec (sub b o (N.of_nat n))) = g b ->
  judge b (x_verify V (x_uint V n) f (drop o b)) [mkCheck o (N.of_nat n) KEof g KVerify []]
    (XOk (drop (o + N.of_nat n) b) (le_dec (sub b o (N.of_nat n)))).
Proof.
  intros Hn H. unfold x_verify. rewrite (uint_judge b o n Hn). unfold judge, report, failure, present.
  cbn [c_at c_width c_short c_good c_bad c_inside map].
  destruct (_ <? _); cbn [xbind]; [reflexivity|]. rewrite H. now destruct (g b).
Qed.
Lemma le_dec_lit (l v : bytes) : is_bytes v -> is_bytes l -> length v = length l ->
  (le_dec v =? le_dec l) = beq_bytes v l.
Proof.
  intros Hv Hl HL. apply eq_true_iff_eq. rewrite N.eqb_eq, beq_bytes_eq. split; [|now intros ->].
  intros H. now rewrite <- (le_enc_dec v), H, HL, le_enc_dec.
Qed.
Lemma equal_judge b o l : is_bytes b -> is_bytes l -> (0 < length l)%nat -> 
  judge b (x_verify V (x_uint V (length l)) (fun x => x =? le_dec l) (drop o b)) [equal o l]
    (XOk (drop (o + len l) b) (le_dec (sub b o (len l)))).
Proof.
  intros Hb Hl Hn. unfold x_verify. rewrite (uint_judge b o _ Hn). unfold judge, report, failure, present, equal.
  cbn [c_at c_width c_short c_good c_bad c_inside map]. fold (len l).
  destruct (len b <? _) eqn:E; cbn [xbind]; [reflexivity|].
  rewrite le_dec_lit; try assumption.
  - now destruct (beq_bytes _ _).
  - apply is_bytes_firstn, is_bytes_skipn, Hb.
  - unfold sub. rewrite firstn_length, skipn_length. unfold len in *. lia.
Qed.

Lemma judge_cons {A B} b r i a (f : bytes -> A -> eres (err V) B) c cs' k :
  judge b r [c] (XOk i a) -> judge b (f i a) cs' k -> judge b (xbind r f) (c :: cs') k.
Proof. intros H K. change (c :: cs') with ([c] ++ cs'). now apply (judge_bind _ _ i a). Qed.

Ltac norm := repeat rewrite <- N.add_assoc;
  cbn [N.of_nat Pos.of_succ_nat Pos.succ N.add Pos.add Pos.add_carry len length].
Ltac tell := unfold judge; match goal with |- _ = match ?x with _ => _ end => destruct x; reflexivity end.

Lemma field_judge b o :
  judge b (x_field V (drop o b)) (field_checks o)
    (XOk (drop (o + 8) b) (mkField (field_len b o) (u16_at b (o + 2)) (field_off b o))).
Proof.
  unfold x_field, field_checks. eapply judge_last.
  - apply judge_context. eapply judge_cons; [apply (uint_judge _ _ 2); lia|]. norm.
    eapply judge_cons; [apply (uint_judge _ _ 2); lia|]. norm.
    eapply judge_last; [apply (uint_judge _ _ 4); lia|]. norm. reflexivity.
  - cbn [fst snd]. unfold field_len, field_off. now rewrite !le_dec_u16, le_dec_u32.
Qed.
Lemma flags_judge cfg b o :
  judge b (x_flags V cfg (drop o b)) (flags_checks o) (XOk (drop (o + 4) b) (u32_at b o)).
Proof.
  apply judge_context. rewrite <- le_dec_u32. apply (verify_judge _ _ 4); [lia|]. apply flags_validate.
Qed.
Lemma buf_judge s b o n : (0 < n)%nat ->
  judge b (x_buf V s n (drop o b)) (buffer_checks s o (N.of_nat n))
    (XOk (drop (o + N.of_nat n) b) (sub b o (N.of_nat n))).
Proof. intros H. apply judge_context, take_judge. lia. Qed.
Lemma version_judge b o : is_bytes b -> exists v,
  judge b (x_version V (drop o b)) (version_checks o) (XOk (drop (o + 8) b) v).
Proof.
  intros Hb. eexists. apply judge_context.
  eapply judge_bind; [apply judge_context, (uint_judge _ _ 1); lia|]. norm.
  eapply judge_bind; [apply judge_context, (uint_judge _ _ 1); lia|]. norm.
  eapply judge_bind; [apply judge_context, (uint_judge _ _ 2); lia|]. norm.
  eapply judge_bind; [apply judge_context, (equal_judge b _ [0; 0; 0] Hb); [repeat constructor|cbn; lia]|]. norm.
  eapply judge_last; [apply judge_context, (equal_judge b _ [15] Hb); [repeat constructor|cbn; lia]|]. norm.
  reflexivity.
Qed.
Lemma filetime_judge cfg b o : is_bytes b ->
  judge b (x_filetime V cfg (drop o b)) (filetime_checks cfg o)
    (XOk (drop (o + 8) b) (mkFileTime (u32_at b o) (u32_at b (o + 4)))).
Proof.
  intros Hb. unfold x_filetime, filetime_checks.
  assert (H : judge b (context V "FileTime" (fun i => run (r, low) <- x_uint V 4 i; run (r, high) <- x_uint V 4 r; XOk r (low, high)) (drop o b))
     (inside "FileTime" o [present o 4; present (o + 4) 4])
     (XOk (drop (o + 8) b) (u32_at b o, u32_at b (o + 4)))).
  { apply judge_context. eapply judge_cons; [apply (uint_judge _ _ 4); lia|]. norm.
    eapply judge_last; [apply (uint_judge _ _ 4); lia|]. norm. now rewrite !le_dec_u32. }
  unfold judge in *. rewrite report_app, report_inside in *. rewrite H. clear H.
  cbn [report]. unfold failure, present, time_at. cbn [c_at c_width c_short c_good c_bad c_inside map].
  destruct (len b <? o + 4) eqn:E1; cbn [xbind]; [reflexivity|].
  destruct (len b <? o + 4 + 4) eqn:E2; cbn [xbind]; [reflexivity|].
  replace (len b <? o + 8) with false by lia. cbn [fst snd].
  pose proof (filetime_de_at cfg b o Hb) as D. unfold filetime_de in D.
  rewrite le_u32_at in D. replace (o + 4 <=? len b) with true in D by lia. cbn [pbind] in D.
  rewrite le_u32_at in D. replace (o + 4 + 4 <=? len b) with true in D by lia. cbn [pbind] in D.
  change (skipn (N.to_nat o) b) with (drop o b) in *.
  destruct (ft_to_system_time cfg _) eqn:F; destruct (_ || _) eqn:G; rewrite ?G in D; try reflexivity.
  - rewrite andb_false_r in D. discriminate.
  - replace (o + 8 <=? len b) with true in D by lia. discriminate.
Qed.
Lemma single_host_judge b : is_bytes b -> exists v,
  judge b (x_single_host V b) single_host_checks (XOk (drop 48 b) v).
Proof.
  intros Hb. eexists. rewrite <- (drop_0 b) at 2. apply judge_context.
  eapply judge_cons; [apply (uint_judge _ _ 4); lia|]. norm.
  eapply judge_cons; [apply (equal_judge b _ [0; 0; 0; 0] Hb); [repeat constructor|cbn; lia]|]. norm.
  eapply judge_cons; [apply (take_judge _ _ 8); lia|]. norm.
  eapply judge_last; [apply (take_judge _ _ 32); lia|]. norm. reflexivity.
Qed.
Lemma signature_judge b : is_bytes b -> exists v,
  judge b (x_signature V b) signature_checks (XOk (drop 16 b) v).
Proof.
  intros Hb. eexists. rewrite <- (drop_0 b) at 2. apply judge_context.
  eapply judge_bind; [apply judge_context, (equal_judge b _ [1; 0; 0; 0] Hb); [repeat constructor|cbn; lia]|]. norm.
  eapply judge_bind; [apply (buf_judge _ _ _ 4); lia|]. norm.
  eapply judge_bind; [apply judge_context, (uint_judge _ _ 4); lia|]. norm.
  eapply judge_last; [apply judge_context, (uint_judge _ _ 4); lia|]. norm. reflexivity.
Qed.
Lemma lmv1_judge b : judge b (x_lmv1 V b) lmv1_checks (XOk (drop 24 b) (LmV1 (sub b 0 24))).
Proof.
  rewrite <- (drop_0 b) at 2. unfold x_lmv1, x_map. eapply judge_last; [|reflexivity].
  apply judge_context. refine (buf_judge "response" b 0 24 _). lia.
Qed.
Lemma ntv1_judge b : judge b (x_ntv1 V b) ntv1_checks (XOk (drop 24 b) (NtV1 (sub b 0 24))).
Proof.
  rewrite <- (drop_0 b) at 2. unfold x_ntv1, x_map. eapply judge_last; [|reflexivity].
  apply judge_context. refine (buf_judge "response" b 0 24 _). lia.
Qed.
Lemma lmv2_judge b : judge b (x_lmv2 V b) lmv2_checks (XOk (drop 24 b) (LmV2 (sub b 0 16) (sub b 16 8))).
Proof.
  rewrite <- (drop_0 b) at 2. apply judge_context.
  eapply judge_bind; [apply (buf_judge _ _ _ 16); lia|]. norm.
  eapply judge_last; [apply (buf_judge _ _ _ 8); lia|]. norm. reflexivity.
Qed.

(** what the erased decoder says of the other results *)
Lemma erase_ok {E A} (r : eres E A) i a : erase r = POk i a -> r = XOk i a.
Proof. destruct r; cbn; congruence. Qed.
Lemma erase_error {E A} (r : eres E A) : erase r = PErr EError -> exists e, r = XErr e.
Proof. destruct r; cbn; try congruence. eauto. Qed.
Lemma erase_panic {E A} (r : eres E A) w : erase r = PPanic w -> r = XPanic w.
Proof. destruct r; cbn; congruence. Qed.
Lemma unicode_ok b : x_unicode V b = XOk (snd (read_utf16 b)) (fst (read_utf16 b)).
Proof. apply erase_ok. now rewrite er_unicode, unicode_de_spec. Qed.
Lemma not_error {E A} (r : eres E A) : erase r <> PErr EError -> forall e, r <> XErr e.
Proof. intros H e ->. now apply H. Qed.
Lemma many0_no_error cfg b : is_bytes b -> many0 (av_pair_de cfg) b <> PErr EError.
Proof.
  intros Hb. destruct (walk_total cfg b) as [w Hw]. apply many0_agrees in Hw; [|assumption].
  destruct w; cbn [walk_agrees] in Hw; [rewrite Hw|destruct Hw as [n ->]|rewrite Hw]; discriminate.
Qed.

Lemma ntv2_judge cfg b : is_bytes b -> exists k, (forall e, k <> XErr e) /\
  judge b (x_ntv2 V cfg b) (ntv2_checks cfg) k.
Proof.
  intros Hb. eexists. split; cycle 1.
  - rewrite <- (drop_0 b) at 2. apply judge_context_ok.
    + eapply judge_bind; [apply judge_context, (equal_judge b _ [1] Hb); [repeat constructor|cbn; lia]|]. norm.
      eapply judge_bind; [apply judge_context, (equal_judge b _ [1] Hb); [repeat constructor|cbn; lia]|]. norm.
      eapply judge_bind; [apply judge_context, (equal_judge b _ [0; 0] Hb); [repeat constructor|cbn; lia]|]. norm.
      eapply judge_bind; [apply judge_context, (equal_judge b _ [0; 0; 0; 0] Hb); [repeat constructor|cbn; lia]|]. norm.
      eapply judge_bind; [now apply filetime_judge|]. norm.
      eapply judge_bind; [apply (buf_judge _ _ _ 8); lia|]. norm.
      eapply judge_last; [apply (equal_judge b _ [0; 0; 0; 0] Hb); [repeat constructor|cbn; lia]|]. norm. reflexivity.
    + apply not_error. rewrite erase_bind. rewrite (er_many0 _ _ (av_pair_de cfg)) by apply er_av_pair.
      pose proof (many0_no_error cfg (drop 28 b) (drop_bytes _ _ Hb)) as H.
      destruct (many0 _ _); cbn in *; congruence.
  - apply not_error. rewrite erase_bind. rewrite (er_many0 _ _ (av_pair_de cfg)) by apply er_av_pair.
    pose proof (many0_no_error cfg (drop 28 b) (drop_bytes _ _ Hb)) as H.
    destruct (many0 _ _); cbn in *; congruence.
Qed.

Lemma av_head_report b id : u16_at b 0 <= 10 -> av_id_of (u16_at b 0) = Some id ->
  judge b (context V "AvPair" (fun i => run (r, id) <- x_av_id V i;
                     run (r, data) <- x_length_data V (x_uint V 2) r; XOk r (id, data)) b)
    av_head_checks
    (if len b <? 4 + u16_at b 2 then XIncomplete (u16_at b 2 - (len b - 4))
     else XOk (drop (4 + u16_at b 2) b) (id, sub b 4 (u16_at b 2))).
Proof.
  intros Hi Hid. rewrite <- (drop_0 b) at 2. apply judge_context_ok.
  - apply (judge_bind b _ (drop 2 b) id).
    + apply judge_context. unfold x_map_opt. rewrite (uint_judge b 0 2) by lia.
      unfold judge, report, failure, present. cbn [c_at c_width c_short c_good c_bad c_inside map].
      change (N.of_nat 2) with 2. rewrite le_dec_u16.
      destruct (_ <? _); cbn [xbind]; [reflexivity|]. rewrite Hid.
      replace (u16_at b 0 <=? 10) with true by lia. reflexivity.
    + unfold x_length_data. rewrite (uint_judge b 2 2) by lia. unfold judge. change (N.of_nat 2) with 2.
      destruct (report b [present 2 2]) eqn:E; cbn [xbind].
      * reflexivity.
      * change (2 + 2) with 4. rewrite le_dec_u16, drop_len.
        unfold report, failure, present in E. cbn [c_at c_width c_short c_good c_bad c_inside map] in E.
        destruct (len b <? 2 + 2) eqn:E2; [discriminate|].
        destruct (len b <? 4 + u16_at b 2) eqn:E3.
        -- replace (len b - 4 <? u16_at b 2) with true by lia. reflexivity.
        -- replace (len b - 4 <? u16_at b 2) with false by lia. cbn [xbind].
           rewrite <- sub_drop. change (skipn (N.to_nat (u16_at b 2)) (drop 4 b)) with (drop (u16_at b 2) (drop 4 b)).
           now rewrite drop_drop.
  - intros e. now destruct (_ <? _).
Qed.
Lemma av_head_bad b : 10 < u16_at b 0 \/ len b < 4 -> exists e, report b av_head_checks = Some e
  /\ context V "AvPair" (fun i => run (r, id) <- x_av_id V i;
                     run (r, data) <- x_length_data V (x_uint V 2) r; XOk r (id, data)) b = XErr e.
Proof.
  intros H. 
  assert (J : judge b (x_map_opt V (x_uint V 2) av_id_of b) [mkCheck 0 2 KEof (fun b => u16_at b 0 <=? 10) KMapOpt []]
     (match av_id_of (u16_at b 0) with Some id => XOk (drop 2 b) id | None => XPanic PFuel end)).
  { unfold x_map_opt. rewrite <- (drop_0 b) at 2. rewrite (uint_judge b 0 2) by lia.
    unfold judge, report, failure, present. cbn [c_at c_width c_short c_good c_bad c_inside map].
    change (N.of_nat 2) with 2. rewrite le_dec_u16.
    destruct (_ <? _); cbn [xbind]; [reflexivity|].
    destruct (u16_at b 0 <=? 10) eqn:E.
    - destruct (av_id_of_some (u16_at b 0) ltac:(lia)) as [i ->]. reflexivity.
    - rewrite av_id_of_none by lia. reflexivity. }
  unfold av_head_checks. rewrite report_inside, report_app, report_inside.
  unfold context, x_av_id, context. rewrite J.
  destruct (report b [mkCheck _ _ _ _ _ _]) as [e|] eqn:E.
  { cbn [xbind]. eexists. split; [reflexivity|]. reflexivity. }
  unfold report, failure in E. cbn [c_at c_width c_short c_good c_bad c_inside map] in E.
  destruct (len b <? 0 + 2) eqn:E1; [discriminate|]. destruct (u16_at b 0 <=? 10) eqn:E2; [|discriminate].
  destruct (av_id_of_some (u16_at b 0) ltac:(lia)) as [i ->]. cbn [xbind].
  unfold x_length_data. rewrite (uint_judge b 2 2) by lia.
  unfold report, failure, present. cbn [c_at c_width c_short c_good c_bad c_inside map].
  change (N.of_nat 2) with 2. replace (len b <? 2 + 2) with true by lia. cbn [xbind].
  eexists. split; reflexivity.
Qed.

Lemma judge_error {A} b (r : eres (err V) A) cs k e : judge b r cs k -> (forall e, k <> XErr e) ->
  (r = XErr e <-> report b cs = Some e).
Proof.
  unfold judge. intros -> H. destruct (report b cs).
  - split; intros X; inversion X; reflexivity.
  - split; [|discriminate]. intros K. now destruct (H e).
Qed.
Lemma assert_error {A} cfg r (k : eres (err V) A) : (forall e, k <> XErr e) ->
  forall e, x_assert_consumed V cfg r k <> XErr e.
Proof. intros H e. unfold x_assert_consumed. now destruct (_ && _). Qed.
Lemma bind_error {A B} b (r : eres (err V) A) (f : bytes -> A -> eres (err V) B) cs i a e :
  judge b r cs (XOk i a) -> (forall e, f i a <> XErr e) ->
  (xbind r f = XErr e <-> report b cs = Some e).
Proof.
  intros J H. rewrite J. destruct (report b cs); cbn [xbind].
  - split; intros X; inversion X; reflexivity.
  - split; [|discriminate]. intros K. now destruct (H e).
Qed.

Theorem av_pair_report cfg b e : is_bytes b ->
  (x_av_pair V cfg b = XErr e <-> av_report cfg b = Some e).
Proof.
  intros Hb. unfold x_av_pair, av_report.
  destruct (10 <? u16_at b 0) eqn:E1.
  { destruct (av_head_bad b ltac:(lia)) as (e0 & -> & ->). cbn [xbind]. split; intros X; inversion X; reflexivity. }
  destruct (len b <? 4) eqn:E0.
  { destruct (av_head_bad b ltac:(lia)) as (e0 & -> & ->). cbn [xbind]. split; intros X; inversion X; reflexivity. }
  destruct (av_id_of_some (u16_at b 0) ltac:(lia)) as [id Hid].
  rewrite (av_head_report b id ltac:(lia) Hid).
  destruct (report b av_head_checks) as [e0|] eqn:R; cbn [xbind]; [split; intros X; inversion X; reflexivity|].
  destruct (len b <? 4 + u16_at b 2) eqn:E2; cbn [xbind]; [split; discriminate|].
  set (v := sub b 4 (u16_at b 2)) in *. cbn [fst snd].
  assert (Hv : is_bytes v) by (apply is_bytes_firstn, is_bytes_skipn, Hb).
  assert (K : forall (a : av_pair) r e, x_assert_consumed V cfg r (XOk (drop (4 + u16_at b 2) b) a) <> XErr e)
    by (intros; apply assert_error; discriminate).
  apply av_id_of_code in Hid. rewrite <- Hid.
  destruct id; cbn [av_id_code av_value_checks];
    try (rewrite unicode_ok; cbn [xbind report]; split; [intros H; now apply K in H|discriminate]).
  - cbn [report]. unfold failure. cbn [c_at c_width c_short c_good c_bad c_inside map].
    change (len v <? 0 + 0) with (len v <? 0). replace (len v <? 0) with false by lia.
    destruct (is_nil v); cbn [negb]; [split; discriminate|]. split; intros H; injection H as <-; reflexivity.
  - eapply bind_error; [|intros; apply K]. unfold x_av_flags. eapply judge_last; [|reflexivity].
    rewrite <- (drop_0 v) at 2. apply judge_context, (verify_judge _ _ 4); [lia|].
    change (N.of_nat 4) with 4. rewrite le_dec_u32. apply land_low3, u32_at_u32, Hv.
  - eapply bind_error; [|intros; apply K]. rewrite <- (drop_0 v) at 2. now apply filetime_judge.
  - destruct (single_host_judge v Hv) as [h H]. eapply bind_error; [exact H|intros; apply K].
  - eapply bind_error; [|intros; apply K]. rewrite <- (drop_0 v) at 2. apply (take_judge v 0 16). lia.
Qed.

Lemma short_report b n o w : len b < o + w -> report b (buffer_checks n o w) = Some [(from b o, Nom KEof); (from b o, Context n)].
Proof.
  intros H. cbn. unfold failure. cbn [c_at c_width]. replace (len b <? o + w) with true by lia. reflexivity.
Qed.
Lemma long_report b n o w : o + w <= len b -> report b (buffer_checks n o w) = None.
Proof.
  intros H. cbn. unfold failure. cbn [c_at c_width c_good]. replace (len b <? o + w) with false by lia. reflexivity.
Qed.
(** the two forms of a response: NTLMv2 never succeeds on fewer than 24 bytes *)
Lemma nt_report cfg b e : is_bytes b ->
  (x_nt_challenge V cfg b = XErr e <->
   len b < 24 /\ e = [(b, Nom KEof); (b, Context "response"); (b, Context "Ntv1Challenge"); (b, Nom KAlt)]).
Proof.
  intros Hb. unfold x_nt_challenge, x_alt2. 
  destruct (N.lt_ge_cases (len b) 24) as [H|H].
  - assert (E : erase (x_map V (x_ntv2 V cfg) NtV2 b) = PErr EError).
    { rewrite (er_map _ _ (ntv2_de cfg)) by apply er_ntv2. unfold pmap. rewrite ntv2_de_short; [reflexivity|].
      unfold len in H. lia. }
    apply erase_error in E as [e1 ->]. rewrite ntv1_judge. unfold ntv1_checks.
    rewrite report_inside, short_report by lia. change (from b 0) with b. cbn [append_error or_error verbose_error app].
    split; [intros X; injection X as <-; split; [assumption|reflexivity]|intros [_ ->]; reflexivity].
  - rewrite ntv1_judge. unfold ntv1_checks. rewrite report_inside, long_report by lia.
    split; [|lia]. destruct (x_map V _ _ b) eqn:E; discriminate.
Qed.
Lemma lm_report b e :
  (x_lm_challenge V b = XErr e <->
   len b < 24 /\ e = [(b, Nom KEof); (b, Context "response"); (b, Context "Lmv1Challenge"); (b, Nom KAlt)]).
Proof.
  unfold x_lm_challenge, x_alt2. rewrite lmv2_judge, lmv1_judge. unfold lmv1_checks, lmv2_checks.
  rewrite !report_inside, report_app.
  destruct (N.lt_ge_cases (len b) 24) as [H|H].
  - rewrite (short_report b _ 0 24) by lia. rewrite (short_report b _ 16 8) by lia.
    assert (E : exists x, report b (buffer_checks "response" 0 16) = x) by eauto. destruct E as [x ->].
    change (from b 0) with b.
    destruct x; cbn [append_error or_error verbose_error app];
      (split; [intros X; injection X as <-; split; [assumption|reflexivity]|intros [_ ->]; reflexivity]).
  - rewrite !long_report by lia. split; [discriminate|lia].
Qed.

(** ** Messages *)
Lemma tag_judge b : judge b (x_tag V SIGNATURE (drop 0 b)) [tagged 0 NTLMSSP] (XOk (drop 8 b) NTLMSSP).
Proof.
  rewrite drop_0. unfold x_tag, judge, report, failure, tagged. cbn [c_at c_width c_short c_good c_bad c_inside map].
  change (len NTLMSSP) with 8. change (length SIGNATURE) with 8%nat. change SIGNATURE with NTLMSSP.
  change (firstn 8 b) with (sub b 0 8). change (skipn 8 b) with (drop 8 b). unfold len.
  destruct (8 <=? length b)%nat eqn:E.
  - replace (N.of_nat (length b) <? 0 + 8) with false by lia. cbn [andb]. now destruct (beq_bytes _ _).
  - replace (N.of_nat (length b) <? 0 + 8) with true by lia. reflexivity.
Qed.
Lemma if_version_judge b n fo o : is_bytes b -> exists v,
  judge b (x_cond V (has_flag (u32_at b fo) NTLMSSP_NEGOTIATE_VERSION) (context V n (x_version V)) (drop o b))
    (if_version b fo (inside n o (version_checks o)))
    (XOk (drop (if N.testbit (u32_at b fo) 25 then o + 8 else o) b) v).
Proof.
  intros Hb. rewrite has_flag_testbit. change NTLMSSP_NEGOTIATE_VERSION with 25. unfold x_cond, if_version.
  destruct (N.testbit _ 25).
  - destruct (version_judge b o Hb) as [v Hv]. exists (Some v).
    eapply judge_last; [|reflexivity]. apply judge_context, Hv.
  - exists None. reflexivity.
Qed.

Lemma x_get_data_at {A} n (p : eparser V A) b o m :
  x_get_data_if V (mkField (field_len b o) m (field_off b o)) n p b true =
  if field_len b o =? 0 then XOk [] None
  else if outsideb b o then XPanic PSlice
  else run (_r, v) <- context V n (context V "Field::get_data" p) (field_data b o); XOk [] (Some v).
Proof.
  unfold x_get_data_if, get_range, outsideb; cbn [f_len f_offset fst snd].
  destruct (field_len b o =? 0) eqn:E; [reflexivity|]. cbn [negb andb].
  destruct (len b <? _) eqn:E2.
  - rewrite slice_panic by lia. reflexivity.
  - rewrite slice_ok by lia. cbn [xlift]. unfold field_data.
    replace (field_off b o + field_len b o - field_off b o) with (field_len b o) by lia. reflexivity.
Qed.
Lemma x_get_many_at {A} n (p : eparser V A) b o m :
  x_get_many_if V (mkField (field_len b o) m (field_off b o)) n p b true =
  if field_len b o =? 0 then XOk [] []
  else if outsideb b o then XPanic PSlice
  else run (_r, v) <- context V "Field::get_data" (x_many0 V p) (field_data b o); XOk [] v.
Proof.
  unfold x_get_many_if, get_range, outsideb; cbn [f_len f_offset fst snd].
  destruct (field_len b o =? 0) eqn:E; [reflexivity|]. cbn [negb andb].
  destruct (len b <? _) eqn:E2.
  - rewrite slice_panic by lia. reflexivity.
  - rewrite slice_ok by lia. cbn [xlift]. unfold field_data.
    replace (field_off b o + field_len b o - field_off b o) with (field_len b o) by lia. reflexivity.
Qed.
Lemma x_unicode_field n b o m :
  x_get_data_if V (mkField (field_len b o) m (field_off b o)) n (x_unicode V) b true =
  if field_len b o =? 0 then XOk [] None
  else if outsideb b o then XPanic PSlice
  else XOk [] (Some (fst (read_utf16 (field_data b o)))).
Proof.
  rewrite x_get_data_at. unfold context at 1 2. now rewrite unicode_ok.
Qed.
Lemma x_oem_field n b o m :
  x_get_data_if V (mkField (field_len b o) m (field_off b o)) n (x_oem V) b true =
  if field_len b o =? 0 then XOk [] None
  else if outsideb b o then XPanic PSlice
  else match from_utf8 (field_data b o) with
       | Some s => XOk [] (Some s)
       | None => XErr (field_report b o [Nom KMapOpt; Context "OEM string"; Context "Field::get_data"; Context n])
       end.
Proof.
  rewrite x_get_data_at. destruct (_ =? 0); [reflexivity|]. destruct (outsideb b o); [reflexivity|].
  unfold context at 1 2, x_oem, context, x_map_opt, x_rest. cbn [xbind].
  now destruct (from_utf8 (field_data b o)).
Qed.

Lemma negotiate_head b cfg :
  is_bytes b ->
  judge b (context V "Negotiate" (fun i =>
    run (rest, _sig) <- x_tag V SIGNATURE i;
    run (rest, _mt) <- x_verify V (x_uint V 4) (fun mt => mt =? 1) rest;
    run (rest, fl) <- x_flags V cfg rest;
    run (rest, df) <- context V "domain_name_field" (x_field V) rest;
    run (rest, wf) <- context V "workstation_field" (x_field V) rest;
    XOk rest (fl, df, wf)) b)
   (inside "Negotiate" 0
    (message_checks 1 ++ flags_checks 12 ++ inside "domain_name_field" 16 (field_checks 16)
     ++ inside "workstation_field" 24 (field_checks 24)))
   (XOk (drop 32 b) (u32_at b 12, mkField (field_len b 16) (u16_at b (16 + 2)) (field_off b 16),
                     mkField (field_len b 24) (u16_at b (24 + 2)) (field_off b 24))).
Proof.
  intros Hb. rewrite <- (drop_0 b) at 2. apply judge_context. unfold message_checks. cbn [app].
  eapply judge_cons; [apply tag_judge|].
  eapply judge_cons; [apply (equal_judge b 8 [1; 0; 0; 0] Hb); [repeat constructor|cbn; lia]|]. norm.
  eapply judge_bind; [apply flags_judge|]. norm.
  eapply judge_bind; [apply judge_context, field_judge|].
  change (16 + 8) with 24.
  eapply judge_last; [apply judge_context, field_judge|]. reflexivity.
Qed.
Lemma oem_says_ex b o : (exists v, oem_says b o v) <->
  field_len b o = 0 \/ (field_len b o <> 0 /\ ~ outside b o /\ from_utf8 (field_data b o) <> None).
Proof.
  split.
  - intros [[s|] H]; cbn in H; [right|now left]. destruct H as (H1 & H2 & H3 & H4). repeat split; auto.
    rewrite <- H4, from_utf8_ok by assumption. discriminate.
  - intros [H|(H1 & H2 & H3)]; [now exists None|]. destruct (from_utf8 _) as [s|] eqn:E; [|easy].
    exists (Some s). apply from_utf8_inv in E as [E1 E2]. repeat split; auto.
Qed.
Lemma not_utf8_iff b o : not_utf8 b o <-> field_len b o <> 0 /\ outsideb b o = false /\ from_utf8 (field_data b o) = None.
Proof.
  unfold not_utf8. rewrite outsideb_false. split; intros (H1 & H2 & H3); repeat split; auto.
  - destruct (from_utf8 _) as [s|] eqn:E; [|reflexivity]. apply from_utf8_inv in E as [E1 E2]. now apply H3 in E1.
  - intros s Hs E. rewrite <- E, from_utf8_ok in H3 by assumption. discriminate.
Qed.
Theorem negotiate_error cfg b e : is_bytes b ->
  (x_negotiate V cfg b = XErr e <-> negotiate_report b e).
Proof.
  intros Hb. unfold x_negotiate. rewrite (negotiate_head b cfg Hb).
  destruct (if_version_judge b "Negotiate/version" 12 32 Hb) as [v Hv].
  assert (R : report b (negotiate_checks b) = match report b (inside "Negotiate" 0
    (message_checks 1 ++ flags_checks 12 ++ inside "domain_name_field" 16 (field_checks 16)
     ++ inside "workstation_field" 24 (field_checks 24))) with Some e => Some e | None =>
       report b (if_version b 12 (inside "Negotiate/version" 32 (version_checks 32))) end)
    by apply report_app.
  destruct (report b (inside "Negotiate" 0 _)) as [e0|]; cbn [xbind].
  { split.
    - intros X. injection X as <-. now apply nr_fixed.
    - intros X. destruct X as [e X|X|? X]; rewrite R in X; [injection X as ->; reflexivity| |]; discriminate. }
  cbv zeta. cbn [fst snd]. rewrite Hv, !orb_true_r.
  destruct (report b (if_version _ _ _)) as [e0|]; cbn [xbind].
  { split.
    - intros X. injection X as <-. now apply nr_fixed.
    - intros X. destruct X as [e X|X|? X]; rewrite R in X; [injection X as ->; reflexivity| |]; discriminate. }
  rewrite !x_oem_field.
  assert (N16 := not_utf8_iff b 16). assert (N24 := not_utf8_iff b 24).
  assert (O16 := oem_says_ex b 16). assert (X16 := outsideb_false b 16).
  split.
  - destruct (field_len b 16 =? 0) eqn:L16; cbn [xbind].
    + destruct (field_len b 24 =? 0) eqn:L24; cbn [xbind]; [discriminate|].
      destruct (outsideb b 24) eqn:W24; [discriminate|].
      destruct (from_utf8 (field_data b 24)) eqn:F24; [discriminate|]. cbn [xbind]. intros X. inversion X. subst e.
      destruct O16 as [_ [v' O]]; [left; lia|]. apply (nr_workstation b v'); auto. apply N24. repeat split; auto. lia.
    + destruct (outsideb b 16) eqn:W16; [discriminate|].
      destruct (from_utf8 (field_data b 16)) eqn:F16; cbn [xbind].
      * destruct (field_len b 24 =? 0) eqn:L24; cbn [xbind]; [discriminate|].
        destruct (outsideb b 24) eqn:W24; [discriminate|].
        destruct (from_utf8 (field_data b 24)) eqn:F24; [discriminate|]. cbn [xbind]. intros X. inversion X. subst e.
        destruct O16 as [_ [v' O]]; [right; repeat split; [lia|now apply X16|congruence]|].
        apply (nr_workstation b v'); auto. apply N24. repeat split; auto. lia.
      * intros X. inversion X. subst e. apply nr_domain; auto. apply N16. repeat split; auto. lia.
  - intros X. destruct X as [e X|X H|v' X O H].
    + rewrite R in X. discriminate.
    + apply N16 in H as (H1 & H2 & H3). replace (field_len b 16 =? 0) with false by lia.
      rewrite H2, H3. reflexivity.
    + apply N24 in H as (H1 & H2 & H3). destruct O16 as [O16 _]. specialize (O16 (ex_intro _ v' O)).
      replace (field_len b 24 =? 0) with false by lia. rewrite H2, H3.
      destruct (field_len b 16 =? 0) eqn:L16; [reflexivity|]. destruct O16 as [O16|(_ & O1 & O2)]; [lia|].
      apply X16 in O1. rewrite O1. destruct (from_utf8 (field_data b 16)); [reflexivity|easy].
Qed.

Lemma reserved_judge cfg b : is_bytes b ->
  judge b (x_parse_reserved V cfg (drop 32 b))
    [if strict cfg then equal 32 [0; 0; 0; 0; 0; 0; 0; 0] else present 32 8]
    (XOk (drop 40 b) (le_dec (sub b 32 8))).
Proof.
  intros Hb. unfold x_parse_reserved. destruct (strict cfg).
  - apply (equal_judge b 32 [0; 0; 0; 0; 0; 0; 0; 0] Hb); [repeat constructor|cbn; lia].
  - apply (uint_judge b 32 8). lia.
Qed.
Lemma challenge_head b cfg :
  is_bytes b ->
  judge b (context V "Challenge" (fun i =>
    run (rest, _sig) <- x_tag V SIGNATURE i;
    run (rest, _mt) <- x_verify V (x_uint V 4) (fun mt => mt =? 2) rest;
    run (rest, tf) <- context V "target_name_field" (x_field V) rest;
    run (rest, fl) <- context V "negotiate_flags" (x_flags V cfg) rest;
    run (rest, sc) <- x_buf V "server_challenge" 8 rest;
    run (rest, _reserved) <- context V "reserved" (x_parse_reserved V cfg) rest;
    run (rest, inf) <- context V "target_infos_field" (x_field V) rest;
    XOk rest (tf, fl, sc, inf)) b)
   (inside "Challenge" 0
    (message_checks 2 ++ inside "target_name_field" 12 (field_checks 12)
     ++ inside "negotiate_flags" 20 (flags_checks 20) ++ buffer_checks "server_challenge" 24 8
     ++ inside "reserved" 32 [if strict cfg then equal 32 [0; 0; 0; 0; 0; 0; 0; 0] else present 32 8]
     ++ inside "target_infos_field" 40 (field_checks 40)))
   (XOk (drop 48 b) (mkField (field_len b 12) (u16_at b (12 + 2)) (field_off b 12), u32_at b 20, sub b 24 8,
                     mkField (field_len b 40) (u16_at b (40 + 2)) (field_off b 40))).
Proof.
  intros Hb. rewrite <- (drop_0 b) at 2. apply judge_context. unfold message_checks. cbn [app].
  eapply judge_cons; [apply tag_judge|].
  eapply judge_cons; [apply (equal_judge b 8 [2; 0; 0; 0] Hb); [repeat constructor|cbn; lia]|]. norm.
  eapply judge_bind; [apply judge_context, field_judge|]. change (12 + 8) with 20.
  eapply judge_bind; [apply judge_context, flags_judge|]. change (20 + 4) with 24.
  eapply judge_bind; [apply (buf_judge "server_challenge" b 24 8); lia|].
  change (drop (24 + N.of_nat 8) b) with (drop 32 b).
  eapply judge_bind; [apply judge_context, reserved_judge, Hb|].
  eapply judge_last; [apply judge_context, field_judge|]. reflexivity.
Qed.
Lemma last_not_eol l : last_is_not_eol l = true <-> exists l' a, l = l' ++ [a] /\ a <> AvEOL.
Proof.
  unfold last_is_not_eol. destruct l as [|x l] using rev_ind.
  - split; [discriminate|]. intros (l' & a & H & _). now destruct l'.
  - rewrite rev_unit. split.
    + intros H. exists l, x. split; [reflexivity|]. intros ->. discriminate.
    + intros (l' & a & H & Ha). apply app_inj_tail in H as [-> ->]. now destruct a.
Qed.
Theorem challenge_error cfg b e : is_bytes b ->
  (x_challenge V cfg b = XErr e <-> challenge_report cfg b e).
Proof.
  intros Hb. unfold x_challenge. rewrite (challenge_head b cfg Hb).
  destruct (if_version_judge b "version" 20 48 Hb) as [v Hv].
  assert (R : report b (challenge_checks cfg b) = match report b (inside "Challenge" 0
    (message_checks 2 ++ inside "target_name_field" 12 (field_checks 12)
     ++ inside "negotiate_flags" 20 (flags_checks 20) ++ buffer_checks "server_challenge" 24 8
     ++ inside "reserved" 32 [if strict cfg then equal 32 [0; 0; 0; 0; 0; 0; 0; 0] else present 32 8]
     ++ inside "target_infos_field" 40 (field_checks 40))) with Some e => Some e | None =>
       report b (if_version b 20 (inside "version" 48 (version_checks 48))) end)
    by apply report_app.
  destruct (report b (inside "Challenge" 0 _)) as [e0|]; cbn [xbind].
  { split.
    - intros X. injection X as <-. now apply cr_fixed.
    - intros X. destruct X as [e X|? ? ? X]; rewrite R in X; [injection X as ->; reflexivity|]; discriminate. }
  rewrite Hv, orb_true_r.
  destruct (report b (if_version _ _ _)) as [e0|]; cbn [xbind].
  { split.
    - intros X. injection X as <-. now apply cr_fixed.
    - intros X. destruct X as [e X|? ? ? X]; rewrite R in X; [injection X as ->; reflexivity|]; discriminate. }
  rewrite x_unicode_field, x_get_many_at.
  assert (Hd : is_bytes (field_data b 40)) by (apply is_bytes_firstn, is_bytes_skipn, Hb).
  assert (S : outsideb b 40 = false -> field_len b 40 <> 0 ->
     slice b (field_off b 40) (field_off b 40 + field_len b 40) = Val (field_data b 40)).
  { intros H1 H2. unfold outsideb in H1. rewrite slice_ok by lia. unfold field_data. do 2 f_equal. lia. }
  assert (X12 := outsideb_false b 12). assert (X40 := outsideb_false b 40).
  split.
  - intros X.
    assert (O12 : ~ outside b 12).
    { apply X12. destruct (field_len b 12 =? 0) eqn:L12; [unfold outsideb; now rewrite L12|].
      destruct (outsideb b 12); [discriminate X|reflexivity]. }
    assert (Y : exists o, (if field_len b 12 =? 0 then XOk [] None
        else if outsideb b 12 then XPanic PSlice
        else XOk [] (Some (fst (read_utf16 (field_data b 12))))) = @XOk (err V) _ [] o).
    { apply X12 in O12. rewrite O12. destruct (_ =? 0); eauto. }
    destruct Y as [o Y]. rewrite Y in X. cbn [xbind] in X. clear Y.
    destruct (field_len b 40 =? 0) eqn:L40; [discriminate X|].
    destruct (outsideb b 40) eqn:W40; [discriminate X|].
    unfold context in X.
    assert (M : erase (x_many0 V (x_av_pair V cfg) (field_data b 40)) = many0 (av_pair_de cfg) (field_data b 40))
      by apply er_many0, er_av_pair.
    destruct (walk_total cfg (field_data b 40)) as [w Hw]. pose proof (many0_agrees _ _ _ Hd Hw) as A.
    destruct w as [l r| |]; cbn [walk_agrees] in A.
    + rewrite A in M. apply erase_ok in M. rewrite M in X. cbn [xbind] in X.
      destruct (last_is_not_eol l) eqn:El; [|discriminate].
      apply last_not_eol in El as (l' & a & -> & Ha). unfold get_range in X. cbn [f_len f_offset fst snd] in X.
      rewrite S in X by (auto; lia). inversion X. subst e. apply (cr_eol cfg b l' a r); auto; [lia|now apply X40].
    + destruct A as [n A]. rewrite A in M. destruct (x_many0 _ _ _); cbn in M; discriminate.
    + rewrite A in M. apply erase_panic in M. rewrite M in X. discriminate.
  - intros X. destruct X as [e X|l a r X O12 L40 O40 Hw Ha]; [rewrite R in X; discriminate|].
    apply X12 in O12. apply X40 in O40. rewrite O12, O40.
    assert (M : erase (x_many0 V (x_av_pair V cfg) (field_data b 40)) = many0 (av_pair_de cfg) (field_data b 40))
      by apply er_many0, er_av_pair.
    pose proof (many0_agrees _ _ _ Hd Hw) as A. cbn [walk_agrees] in A. rewrite A in M. apply erase_ok in M.
    replace (field_len b 40 =? 0) with false by lia. unfold context. rewrite M.
    assert (El : last_is_not_eol (l ++ [a]) = true) by (apply last_not_eol; eauto).
    destruct (field_len b 12 =? 0); cbn [xbind]; rewrite El; unfold get_range; cbn [f_len f_offset fst snd];
      now rewrite S by auto.
Qed.

Lemma authenticate_head b cfg :
  is_bytes b ->
  judge b (context V "Authenticate" (fun i =>
    run (rest, _sig) <- x_tag V SIGNATURE i;
    run (rest, _mt) <- x_verify V (x_uint V 4) (fun mt => mt =? 3) rest;
    run (rest, lmf) <- context V "lm_challenge" (x_field V) rest;
    run (rest, ntf) <- context V "nt_challenge" (x_field V) rest;
    run (rest, df) <- context V "domain_field" (x_field V) rest;
    run (rest, uf) <- context V "user_field" (x_field V) rest;
    run (rest, wf) <- context V "workstation_field" (x_field V) rest;
    run (rest, kf) <- context V "encrypted_random_session_key_field" (x_field V) rest;
    run (rest, fl) <- x_flags V cfg rest;
    XOk rest (lmf, ntf, df, uf, wf, kf, fl)) b)
   (inside "Authenticate" 0
    (message_checks 3 ++ inside "lm_challenge" 12 (field_checks 12)
     ++ inside "nt_challenge" 20 (field_checks 20) ++ inside "domain_field" 28 (field_checks 28)
     ++ inside "user_field" 36 (field_checks 36) ++ inside "workstation_field" 44 (field_checks 44)
     ++ inside "encrypted_random_session_key_field" 52 (field_checks 52) ++ flags_checks 60))
   (XOk (drop 64 b) (mkField (field_len b 12) (u16_at b (12 + 2)) (field_off b 12),
                     mkField (field_len b 20) (u16_at b (20 + 2)) (field_off b 20),
                     mkField (field_len b 28) (u16_at b (28 + 2)) (field_off b 28),
                     mkField (field_len b 36) (u16_at b (36 + 2)) (field_off b 36),
                     mkField (field_len b 44) (u16_at b (44 + 2)) (field_off b 44),
                     mkField (field_len b 52) (u16_at b (52 + 2)) (field_off b 52), u32_at b 60)).
Proof.
  intros Hb. rewrite <- (drop_0 b) at 2. apply judge_context. unfold message_checks. cbn [app].
  eapply judge_cons; [apply tag_judge|].
  eapply judge_cons; [apply (equal_judge b 8 [3; 0; 0; 0] Hb); [repeat constructor|cbn; lia]|]. norm.
  eapply judge_bind; [apply judge_context, field_judge|]. change (12 + 8) with 20.
  eapply judge_bind; [apply judge_context, field_judge|]. change (20 + 8) with 28.
  eapply judge_bind; [apply judge_context, field_judge|]. change (28 + 8) with 36.
  eapply judge_bind; [apply judge_context, field_judge|]. change (36 + 8) with 44.
  eapply judge_bind; [apply judge_context, field_judge|]. change (44 + 8) with 52.
  eapply judge_bind; [apply judge_context, field_judge|]. change (52 + 8) with 60.
  eapply judge_last; [apply flags_judge|]. reflexivity.
Qed.
(** LM response: never an error *)
Lemma x_lm_field b m (v1 : bool) :
  (if v1 then x_ok_flatten V (x_get_data_if V (mkField (field_len b 12) m (field_off b 12)) "lmv1_challenge_response" (x_lmv1 V) b true)
   else x_ok_flatten V (x_get_data_if V (mkField (field_len b 12) m (field_off b 12)) "lmv2_challenge_response" (x_lmv2 V) b true))
  = if outsideb b 12 then XPanic PSlice
    else XOk [] (match lm_field b 12 v1 with POk _ v => v | _ => None end).
Proof.
  assert (E : lm_field b 12 v1 = if outsideb b 12 then PPanic PSlice
    else POk [] (match lm_field b 12 v1 with POk _ v => v | _ => None end)).
  { unfold lm_field. destruct (_ =? 0) eqn:L; [unfold outsideb; now rewrite L|].
    destruct (outsideb b 12); [reflexivity|]. now destruct (_ <? 24). }
  destruct v1.
  - assert (X : erase (x_ok_flatten V (x_get_data_if V (mkField (field_len b 12) m (field_off b 12)) "lmv1_challenge_response" (x_lmv1 V) b true))
      = lm_field b 12 true).
    { rewrite <- (lm_field_spec b 12 m true). apply er_ok_flatten, er_get_data, er_lmv1. }
    rewrite E in X. destruct (outsideb b 12); [now apply erase_panic|now apply erase_ok].
  - assert (X : erase (x_ok_flatten V (x_get_data_if V (mkField (field_len b 12) m (field_off b 12)) "lmv2_challenge_response" (x_lmv2 V) b true))
      = lm_field b 12 false).
    { rewrite <- (lm_field_spec b 12 m false). apply er_ok_flatten, er_get_data, er_lmv2. }
    rewrite E in X. destruct (outsideb b 12); [now apply erase_panic|now apply erase_ok].
Qed.
Definition key_error (b : bytes) : list (bytes * verbose_kind) := field_report b 52
      [Nom KEof; Context "encrypted_random_session_key"; Context "Field::get_data";
       Context "encrypted_random_session_key"].
Lemma x_key_field b m c e :
  x_get_data_if V (mkField (field_len b 52) m (field_off b 52)) "encrypted_random_session_key"
    (x_buf V "encrypted_random_session_key" 16) b c = XErr e <->
  c = true /\ field_len b 52 <> 0 /\ outsideb b 52 = false /\ field_len b 52 < 16 /\ e = key_error b.
Proof.
  destruct c; [|split; [discriminate|intros [H _]; discriminate]].
  rewrite x_get_data_at. destruct (field_len b 52 =? 0) eqn:L; [split; [discriminate|lia]|].
  destruct (outsideb b 52) eqn:W; [split; [discriminate|intros (_ & _ & H & _); discriminate]|].
  pose proof (field_data_len b 52 W ltac:(lia)) as Hl.
  unfold context at 1 2.
  pose proof (buf_judge "encrypted_random_session_key" (field_data b 52) 0 16 ltac:(lia)) as J.
  rewrite drop_0 in J. rewrite J. change (N.of_nat 16) with 16.
  destruct (N.lt_ge_cases (field_len b 52) 16) as [H|H].
  - rewrite short_report by lia. cbn [xbind]. unfold key_error.
    split; [intros X; inversion X; subst e|intros (_ & _ & _ & _ & ->); reflexivity]. repeat split; auto. lia.
  - rewrite long_report by lia. cbn [xbind]. split; [discriminate|lia].
Qed.
Definition nt_error (b : bytes) : list (bytes * verbose_kind) := field_report b 20
      [Nom KEof; Context "response"; Context "Ntv1Challenge"; Nom KAlt; Context "Field::get_data";
       Context "nt_challenge_response"].
Lemma x_nt_field cfg b m e : is_bytes b ->
  x_get_data_if V (mkField (field_len b 20) m (field_off b 20)) "nt_challenge_response" (x_nt_challenge V cfg) b true = XErr e <->
  field_len b 20 <> 0 /\ outsideb b 20 = false /\ field_len b 20 < 24 /\ e = nt_error b.
Proof.
  intros Hb. rewrite x_get_data_at. destruct (field_len b 20 =? 0) eqn:L; [split; [discriminate|lia]|].
  destruct (outsideb b 20) eqn:W; [split; [discriminate|intros (_ & H & _); discriminate]|].
  pose proof (field_data_len b 20 W ltac:(lia)) as Hl.
  assert (Hd : is_bytes (field_data b 20)) by (apply is_bytes_firstn, is_bytes_skipn, Hb).
  unfold context at 1 2.
  destruct (x_nt_challenge V cfg (field_data b 20)) as [r c|e0|n|w] eqn:E; cbn [xbind].
  - split; [discriminate|]. intros (_ & _ & H & ->).
    assert (H24 : len (field_data b 20) < 24) by lia.
    pose proof (proj2 (nt_report cfg (field_data b 20) _ Hd) (conj H24 eq_refl)) as X. rewrite X in E. discriminate E.
  - apply nt_report in E as [E ->]; [|assumption]. unfold nt_error.
    split; [intros X; inversion X; subst e|intros (_ & _ & _ & ->); reflexivity]. repeat split; auto; lia.
  - split; [discriminate|]. intros (_ & _ & H & ->).
    assert (H24 : len (field_data b 20) < 24) by lia.
    pose proof (proj2 (nt_report cfg (field_data b 20) _ Hd) (conj H24 eq_refl)) as X. rewrite X in E. discriminate E.
  - split; [discriminate|]. intros (_ & _ & H & ->).
    assert (H24 : len (field_data b 20) < 24) by lia.
    pose proof (proj2 (nt_report cfg (field_data b 20) _ Hd) (conj H24 eq_refl)) as X. rewrite X in E. discriminate E.
Qed.
Lemma x_nt_field_ok cfg b m v : is_bytes b ->
  (exists r, x_get_data_if V (mkField (field_len b 20) m (field_off b 20)) "nt_challenge_response" (x_nt_challenge V cfg) b true = XOk r v)
  <-> nt_says cfg b 20 v.
Proof.
  intros Hb. assert (Hd : is_bytes (field_data b 20)) by (apply is_bytes_firstn, is_bytes_skipn, Hb).
  assert (E := er_get_data V (mkField (field_len b 20) m (field_off b 20)) "nt_challenge_response" (x_nt_challenge V cfg)
            (nt_challenge_de cfg) b true (er_nt_challenge V cfg)). rewrite get_data_at in E.
  destruct (nt_total cfg (field_data b 20)) as [w Hw]. pose proof (nt_agree _ _ _ Hd Hw) as A.
  set (x := x_get_data_if _ _ _ _ _ _) in *. unfold nt_says.
  split.
  - intros [r Hx]. rewrite Hx in E. cbn [erase] in E.
    destruct (field_len b 20 =? 0) eqn:L; [injection E as -> ->; lia|].
    destruct (outsideb b 20) eqn:W; [discriminate|].
    destruct w as [c| |]; cbn [nt_agrees] in A.
    + destruct A as [rest A]. rewrite A in E. cbn [pbind] in E. injection E as -> ->.
      repeat split; [lia|now apply outsideb_false|assumption].
    + destruct A as [e A]. rewrite A in E. discriminate.
    + rewrite A in E. discriminate.
  - destruct v as [c|].
    + intros (H1 & H2 & H3). replace (field_len b 20 =? 0) with false in E by lia.
      apply outsideb_false in H2. rewrite H2 in E. apply nt_agree in H3; [|assumption]. destruct H3 as [rest H3].
      rewrite H3 in E. cbn [pbind] in E. apply erase_ok in E. eauto.
    + intros H. replace (field_len b 20 =? 0) with true in E by lia. apply erase_ok in E. eauto.
Qed.

Lemma if_version_mic b : is_bytes b -> exists v,
  judge b (x_cond V (has_flag (u32_at b 60) NTLMSSP_NEGOTIATE_VERSION) (context V "Authenticate/version" (x_version V)) (drop 64 b))
    (if_version b 60 (inside "Authenticate/version" 64 (version_checks 64)))
    (XOk (drop (authenticate_mic_off b) b) v).
Proof. intros Hb. exact (if_version_judge b "Authenticate/version" 60 64 Hb). Qed.
Theorem authenticate_error cfg b e : is_bytes b ->
  (x_authenticate V cfg b = XErr e <-> authenticate_report cfg b e).
Proof.
  intros Hb. unfold x_authenticate. rewrite (authenticate_head b cfg Hb).
  destruct (if_version_mic b Hb) as [v Hv].
  set (H0 := inside "Authenticate" 0 _).
  set (H1 := if_version b 60 _) in Hv.
  set (mo := authenticate_mic_off b) in *.
  assert (R : report b (authenticate_checks b) = match report b H0 with Some e => Some e | None =>
      match report b H1 with Some e => Some e | None =>
      report b (inside "Authenticate/mic" mo (buffer_checks "mic" mo 16)) end end).
  { unfold authenticate_checks. fold mo. fold H0 H1. now rewrite !report_app. }
  destruct (report b H0) as [e0|]; cbn [xbind].
  { split.
    - intros X. injection X as <-. now apply ar_fixed.
    - intros X. destruct X as [e X|X|? X]; rewrite R in X; [injection X as ->; reflexivity| |]; discriminate. }
  rewrite Hv.
  destruct (report b H1) as [e0|]; cbn [xbind].
  { split.
    - intros X. injection X as <-. now apply ar_fixed.
    - intros X. destruct X as [e X|X|? X]; rewrite R in X; [injection X as ->; reflexivity| |]; discriminate. }
  rewrite (judge_context b "Authenticate/mic" mo _ _ _ _ (buf_judge "mic" b mo 16 ltac:(lia))).
  change (N.of_nat 16) with 16.
  destruct (report b (inside "Authenticate/mic" mo _)) as [e0|]; cbn [xbind].
  { split.
    - intros X. injection X as <-. now apply ar_fixed.
    - intros X. destruct X as [e X|X|? X]; rewrite R in X; [injection X as ->; reflexivity| |]; discriminate. }
  rewrite x_lm_field. destruct (outsideb b 12) eqn:W12; cbn [xbind].
  { apply outsideb_spec in W12. split; [discriminate|]. intros X. destruct X as [e X|X O|? X O]; [rewrite R in X; discriminate|easy|easy]. }
  assert (O12 : ~ outside b 12) by now apply outsideb_false.
  assert (Nt := fun e => x_nt_field cfg b (u16_at b (20 + 2)) e Hb).
  assert (No := fun v => x_nt_field_ok cfg b (u16_at b (20 + 2)) v Hb).
  destruct (x_get_data_if V (mkField (field_len b 20) _ _) _ _ _ _) as [r nt|e0|n|w]; cbn [xbind].
  - assert (Hnt : nt_says cfg b 20 nt) by (apply No; eauto).
    assert (NotNt : ~ (field_len b 20 <> 0 /\ outsideb b 20 = false /\ field_len b 20 < 24)).
    { intros (K1 & K2 & K3). specialize (Nt (nt_error b)). destruct Nt as [_ Nt].
      discriminate Nt. repeat split; auto. }
    rewrite !x_unicode_field.
    assert (U : forall o, (if field_len b o =? 0 then @XOk (err V) _ [] None
      else if outsideb b o then XPanic PSlice else XOk [] (Some (fst (read_utf16 (field_data b o)))))
      = if outsideb b o then XPanic PSlice else XOk [] (if field_len b o =? 0 then None else Some (fst (read_utf16 (field_data b o))))).
    { intros o. unfold outsideb. destruct (_ =? 0); [reflexivity|]. now destruct (_ <? _). }
    rewrite !U. clear U.
    destruct (outsideb b 28) eqn:W28; cbn [xbind].
    { apply outsideb_spec in W28. split; [discriminate|]. intros X. destruct X as [e X|X O O' K1 K2|? X O N O2];
        [rewrite R in X; discriminate|apply outsideb_false in O'; tauto|easy]. }
    destruct (outsideb b 36) eqn:W36; cbn [xbind].
    { apply outsideb_spec in W36. split; [discriminate|]. intros X. destruct X as [e X|X O O' K1 K2|? X O N O2 O3];
        [rewrite R in X; discriminate|apply outsideb_false in O'; tauto|easy]. }
    destruct (outsideb b 44) eqn:W44; cbn [xbind].
    { apply outsideb_spec in W44. split; [discriminate|]. intros X. destruct X as [e X|X O O' K1 K2|? X O N O2 O3 O4];
        [rewrite R in X; discriminate|apply outsideb_false in O'; tauto|easy]. }
    rewrite has_flag_testbit. change NTLMSSP_NEGOTIATE_KEY_EXCH with 30.
    assert (K := x_key_field b (u16_at b (52 + 2)) (N.testbit (u32_at b 60) 30)).
    destruct (x_get_data_if V (mkField (field_len b 52) _ _) _ _ _ _) as [r' k|e0|n|w]; cbn [xbind].
    + split; [discriminate|]. intros X. destruct X as [e X|X O O' K1 K2|? X O N O2 O3 O4 O5 T L1 L2];
        [rewrite R in X; discriminate|apply outsideb_false in O'; tauto|].
      apply outsideb_false in O5. specialize (K (key_error b)). destruct K as [_ K]. now discriminate K.
    + pose proof (proj1 (K e0) eq_refl) as (K1 & K2 & K3 & K4 & ->). split.
      * intros X. inversion X. subst e. apply (ar_key cfg b nt); auto; now apply outsideb_false.
      * intros X. destruct X as [e X|X O O' L1 L2|? X O N O2 O3 O4 O5 T L1 L2];
        [rewrite R in X; discriminate|apply outsideb_false in O'; tauto|reflexivity].
    + split; [discriminate|]. intros X. destruct X as [e X|X O O' K1 K2|? X O N O2 O3 O4 O5 T L1 L2];
        [rewrite R in X; discriminate|apply outsideb_false in O'; tauto|].
      apply outsideb_false in O5. specialize (K (key_error b)). destruct K as [_ K]. now discriminate K.
    + split; [discriminate|]. intros X. destruct X as [e X|X O O' K1 K2|? X O N O2 O3 O4 O5 T L1 L2];
        [rewrite R in X; discriminate|apply outsideb_false in O'; tauto|].
      apply outsideb_false in O5. specialize (K (key_error b)). destruct K as [_ K]. now discriminate K.
  - pose proof (proj1 (Nt e0) eq_refl) as (K1 & K2 & K3 & ->). split.
    + intros X. inversion X. subst e. apply ar_nt; auto. now apply outsideb_false.
    + intros X. destruct X as [e X|X O O' L1 L2|nt X O N]; [rewrite R in X; discriminate|reflexivity|].
      apply No in N as [r N]. discriminate.
  - split; [discriminate|]. intros X. destruct X as [e X|X O O' L1 L2|nt X O N]; [rewrite R in X; discriminate| |].
    + apply outsideb_false in O'. now discriminate (proj2 (Nt (nt_error b))).
    + apply No in N as [r N]. discriminate.
  - split; [discriminate|]. intros X. destruct X as [e X|X O O' L1 L2|nt X O N]; [rewrite R in X; discriminate| |].
    + apply outsideb_false in O'. now discriminate (proj2 (Nt (nt_error b))).
    + apply No in N as [r N]. discriminate.
Qed.
