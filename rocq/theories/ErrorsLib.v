(** Lemmas on the decoders with error content (Errors.v). *)
From Coq Require Import Ascii String.
From Verif Require Import Base Nom Unicode Wire Structures Messages Errors Spec SpecErrors Lib Decode Parse.

(** ** Erasure *)
Lemma erase_bind {E A B} (r : eres E A) (k : bytes -> A -> eres E B) :
  erase (xbind r k) = pbind (erase r) (fun i a => erase (k i a)).
Proof. now destruct r. Qed.
Lemma pbind_ext {A B} (r : pres A) (k k' : bytes -> A -> pres B) :
  (forall i a, k i a = k' i a) -> pbind r k = pbind r k'.
Proof. intros H. destruct r; cbn; auto. Qed.
Lemma pbind_assoc {A B C} (r : pres A) (f : bytes -> A -> pres B) (g : bytes -> B -> pres C) :
  pbind (pbind r f) g = pbind r (fun i a => pbind (f i a) g).
Proof. now destruct r. Qed.
Lemma erase_lift {E A B} (o : outcome A) (k : A -> eres E B) :
  erase (xlift o k) = plift o (fun a => erase (k a)).
Proof. now destruct o. Qed.
Lemma plift_ext {A B} (o : outcome A) (k k' : A -> pres B) :
  (forall a, k a = k' a) -> plift o k = plift o k'.
Proof. intros H. destruct o; cbn; auto. Qed.

Section Erasure.
Context (T : error_type).
Lemma er_take n i : erase (x_take T n i) = take n i.
Proof. unfold x_take, take. now destruct (_ <? _)%nat. Qed.
Lemma er_uint k i : erase (x_uint T k i) = le_uint k i.
Proof. unfold x_uint, le_uint. now rewrite erase_bind, er_take. Qed.
Lemma er_tag t i : erase (x_tag T t i) = tag t i.
Proof. unfold x_tag, tag. now destruct (_ && _). Qed.
Lemma er_map {A B} p q (f : A -> B) i : erase (p i) = q i -> erase (x_map T p f i) = pmap q f i.
Proof. intros H. unfold x_map, pmap. now rewrite erase_bind, H. Qed.
Lemma er_verify {A} p q (f : A -> bool) i : erase (p i) = q i -> erase (x_verify T p f i) = verify q f i.
Proof.
  intros H. unfold x_verify, verify. rewrite erase_bind, H. apply pbind_ext. intros r a. now destruct (f a).
Qed.
Lemma er_map_opt {A B} p q (f : A -> option B) i : erase (p i) = q i -> erase (x_map_opt T p f i) = map_opt q f i.
Proof.
  intros H. unfold x_map_opt, map_opt. rewrite erase_bind, H. apply pbind_ext. intros r a. now destruct (f a).
Qed.
Lemma er_cond {A} c (p : eparser T A) q i : erase (p i) = q i -> erase (x_cond T c p i) = cond c q i.
Proof. intros H. unfold x_cond, cond. destruct c; [|reflexivity]. now rewrite erase_bind, H. Qed.
Lemma er_context {A} n (p : eparser T A) i : erase (context T n p i) = erase (p i).
Proof. unfold context. now destruct (p i). Qed.
Lemma er_alt2 {A} (p1 p2 : eparser T A) q1 q2 i : erase (p1 i) = q1 i -> erase (p2 i) = q2 i ->
  erase (x_alt2 T p1 p2 i) = alt2 q1 q2 i.
Proof.
  intros H1 H2. unfold x_alt2, alt2. rewrite <- H1. destruct (p1 i); try reflexivity.
  cbn [erase]. rewrite <- H2. now destruct (p2 i).
Qed.
Lemma er_length_data p q i : erase (p i) = q i -> erase (x_length_data T p i) = length_data q i.
Proof.
  intros H. unfold x_length_data, length_data. rewrite erase_bind, H. apply pbind_ext. intros r a.
  now destruct (_ <? _).
Qed.
Lemma er_many0_go {A} fuel (p : eparser T A) q : (forall i, erase (p i) = q i) ->
  forall i, erase (x_many0_go T fuel p i) = many0_go fuel q i.
Proof.
  intros H. induction fuel as [|fuel IH]; intros i; [reflexivity|]. cbn. rewrite <- (H i).
  destruct (p i); try reflexivity. cbn [erase]. destruct (_ =? _)%nat; [reflexivity|].
  now rewrite erase_bind, IH.
Qed.
Lemma er_many0 {A} (p : eparser T A) q i : (forall i, erase (p i) = q i) ->
  erase (x_many0 T p i) = many0 q i.
Proof. intros H. now apply er_many0_go. Qed.
Lemma er_fold_many0_go {A R} fuel (p : eparser T A) q (g : R -> A -> R) : (forall i, erase (p i) = q i) ->
  forall acc i, erase (x_fold_many0_go T fuel p g acc i) = fold_many0_go fuel q g acc i.
Proof.
  intros H. induction fuel as [|fuel IH]; intros acc i; [reflexivity|]. cbn. rewrite <- (H i).
  destruct (p i); try reflexivity. cbn [erase]. destruct (_ =? _)%nat; [reflexivity|]. apply IH.
Qed.
Lemma er_flags cfg i : erase (x_flags T cfg i) = flags_de cfg i.
Proof. unfold x_flags, flags_de. rewrite er_context. apply er_verify, er_uint. Qed.

Ltac er := repeat first
  [ reflexivity
  | rewrite erase_bind
  | rewrite er_context
  | rewrite er_uint | rewrite er_take | rewrite er_tag | rewrite er_flags
  | apply pbind_ext; intros ].

Lemma er_field i : erase (x_field T i) = field_de i.
Proof. unfold x_field, field_de. er. rewrite !pbind_assoc. er. rewrite !pbind_assoc. er. rewrite !pbind_assoc. er. Qed.
Lemma er_get_data {A} f n (p : eparser T A) q i c : (forall i, erase (p i) = q i) ->
  erase (x_get_data_if T f n p i c) = get_data_if f q i c.
Proof.
  intros H. unfold x_get_data_if, get_data_if. destruct c; [|reflexivity].
  destruct (_ =? 0); [reflexivity|]. rewrite erase_lift. apply plift_ext. intros d.
  now rewrite erase_bind, !er_context, H.
Qed.
Lemma er_get_many {A} f n (p : eparser T A) q i c : (forall i, erase (p i) = q i) ->
  erase (x_get_many_if T f n p i c) = get_many_if f q i c.
Proof.
  intros H. unfold x_get_many_if, get_many_if. destruct c; [|reflexivity].
  destruct (_ =? 0); [reflexivity|]. rewrite erase_lift. apply plift_ext. intros d.
  rewrite erase_bind, er_context, (er_many0 p q); auto.
Qed.
Lemma er_oem i : erase (x_oem T i) = oem_de i.
Proof. unfold x_oem, oem_de. rewrite er_context. now apply er_map_opt. Qed.
Lemma er_unicode i : erase (x_unicode T i) = unicode_de i.
Proof.
  unfold x_unicode, unicode_de. rewrite er_context. apply er_fold_many0_go.
  intros j. apply er_map_opt, er_uint.
Qed.
Lemma er_buf s n i : erase (x_buf T s n i) = buf_de n i.
Proof. unfold x_buf. now rewrite er_context, er_take. Qed.
Lemma er_version i : erase (x_version T i) = version_de i.
Proof.
  unfold x_version, version_de. er; rewrite (er_verify _ (le_uint 3)) by apply er_uint; er.
  rewrite (er_verify _ (le_uint 1)) by apply er_uint. er.
Qed.
Lemma er_filetime cfg i : erase (x_filetime T cfg i) = filetime_de cfg i.
Proof.
  unfold x_filetime, filetime_de. er. rewrite !pbind_assoc. er. rewrite !pbind_assoc. er.
  cbn [fst snd pbind erase]. now destruct (ft_to_system_time _ _).
Qed.
Lemma er_single_host i : erase (x_single_host T i) = single_host_de i.
Proof.
  unfold x_single_host, single_host_de. er; rewrite (er_verify _ (le_uint 4)) by apply er_uint; er.
Qed.
Lemma er_signature i : erase (x_signature T i) = signature_de i.
Proof.
  unfold x_signature, signature_de. er; rewrite (er_verify _ (le_uint 4)) by apply er_uint; er.
  rewrite er_buf. er.
Qed.
Lemma er_av_id i : erase (x_av_id T i) = av_id_de i.
Proof. unfold x_av_id, av_id_de. er. apply er_map_opt, er_uint. Qed.
Lemma er_av_flags i : erase (x_av_flags T i) = av_flags_de i.
Proof. unfold x_av_flags, av_flags_de. er; rewrite (er_verify _ (le_uint 4)) by apply er_uint; er. Qed.
Lemma er_assert {A} cfg r (k : eres (err T) A) q : erase k = q ->
  erase (x_assert_consumed T cfg r k) = assert_consumed cfg r q.
Proof. intros <-. unfold x_assert_consumed, assert_consumed. now destruct (_ && _). Qed.
Lemma er_av_pair cfg i : erase (x_av_pair T cfg i) = av_pair_de cfg i.
Proof.
  unfold x_av_pair, av_pair_de. er. rewrite er_av_id, !pbind_assoc. er.
  rewrite (er_length_data _ (le_uint 2)) by apply er_uint. rewrite !pbind_assoc. er.
  cbn [erase pbind fst snd].
  destruct a; try (er; rewrite ?er_unicode, ?er_av_flags, ?er_filetime, ?er_single_host; apply pbind_ext; intros;
    now apply er_assert).
  - now destruct (is_nil a0).
  - rewrite erase_bind, er_take. apply pbind_ext. intros. now apply er_assert.
Qed.
Lemma er_lmv1 i : erase (x_lmv1 T i) = lmv1_de i.
Proof. apply er_map. now rewrite er_context, er_buf. Qed.
Lemma er_lmv2 i : erase (x_lmv2 T i) = lmv2_de i.
Proof. unfold x_lmv2, lmv2_de. er; rewrite er_buf; er. rewrite er_buf; er. Qed.
Lemma er_lm_challenge i : erase (x_lm_challenge T i) = lm_challenge_de i.
Proof. apply er_alt2; [apply er_lmv2|apply er_lmv1]. Qed.
Lemma er_ntv2 cfg i : erase (x_ntv2 T cfg i) = ntv2_de cfg i.
Proof.
  unfold x_ntv2, ntv2_de. er; rewrite (er_verify _ (le_uint 1)) by apply er_uint; er.
  rewrite (er_verify _ (le_uint 1)) by apply er_uint; er.
  rewrite (er_verify _ (le_uint 2)) by apply er_uint; er.
  rewrite (er_verify _ (le_uint 4)) by apply er_uint; er.
  rewrite er_filetime; er. rewrite er_buf; er.
  rewrite (er_verify _ (le_uint 4)) by apply er_uint; er.
  rewrite (er_many0 _ (av_pair_de cfg)) by apply er_av_pair. er.
Qed.
Lemma er_nt_challenge cfg i : erase (x_nt_challenge T cfg i) = nt_challenge_de cfg i.
Proof.
  apply er_alt2; apply er_map; [apply er_ntv2|]. now rewrite er_context, er_buf.
Qed.
Lemma er_negotiate cfg i : erase (x_negotiate T cfg i) = negotiate_de cfg i.
Proof.
  unfold x_negotiate, negotiate_de. er. rewrite !pbind_assoc; er.
  rewrite (er_verify _ (le_uint 4)) by apply er_uint. rewrite !pbind_assoc; er.
  rewrite !pbind_assoc; er. rewrite er_field, !pbind_assoc; er. rewrite er_field, !pbind_assoc; er.
  cbn [erase pbind fst snd]. er.
  rewrite (er_cond _ _ version_de) by (er; apply er_version). er.
  rewrite (er_get_data _ _ _ oem_de) by apply er_oem. er.
  rewrite (er_get_data _ _ _ oem_de) by apply er_oem. er.
Qed.
Lemma er_reserved cfg i : erase (x_parse_reserved T cfg i) = parse_reserved cfg i.
Proof. unfold x_parse_reserved, parse_reserved. destruct (strict cfg); [apply er_verify|]; apply er_uint. Qed.
Lemma er_challenge cfg i : erase (x_challenge T cfg i) = challenge_de cfg i.
Proof.
  unfold x_challenge, challenge_de. er. rewrite !pbind_assoc; er.
  rewrite (er_verify _ (le_uint 4)) by apply er_uint. rewrite !pbind_assoc; er.
  rewrite er_field, !pbind_assoc; er. rewrite !pbind_assoc; er.
  rewrite er_buf, !pbind_assoc; er. rewrite er_reserved, !pbind_assoc; er.
  rewrite er_field, !pbind_assoc; er.
  cbn [erase pbind]. er.
  rewrite (er_cond _ _ version_de) by (er; apply er_version). er.
  rewrite (er_get_data _ _ _ unicode_de) by apply er_unicode. er.
  rewrite (er_get_many _ _ _ (av_pair_de cfg)) by apply er_av_pair. er.
  destruct (last_is_not_eol _); [|reflexivity]. rewrite erase_lift. reflexivity.
Qed.
Lemma er_ok_flatten {A} (r : eres (err T) (option A)) q : erase r = q ->
  erase (x_ok_flatten T r) = ok_flatten q.
Proof. intros <-. now destruct r. Qed.
Lemma er_authenticate cfg i : erase (x_authenticate T cfg i) = authenticate_de cfg i.
Proof.
  unfold x_authenticate, authenticate_de. er. rewrite !pbind_assoc; er.
  rewrite (er_verify _ (le_uint 4)) by apply er_uint. rewrite !pbind_assoc; er.
  do 6 (rewrite er_field, !pbind_assoc; er). rewrite !pbind_assoc; er.
  cbn [erase pbind]. er.
  rewrite (er_cond _ _ version_de) by (er; apply er_version). er.
  rewrite er_buf. er.
  destruct (has_flag _ NTLMSSP_NEGOTIATE_NTLM).
  - rewrite (er_ok_flatten _ (get_data_if a1 lmv1_de i true)) by (apply er_get_data, er_lmv1). er.
    rewrite (er_get_data _ _ _ (nt_challenge_de cfg)) by apply er_nt_challenge. er.
    do 3 (rewrite (er_get_data _ _ _ unicode_de) by apply er_unicode; er).
    rewrite (er_get_data _ _ _ (buf_de 16)) by apply er_buf. er.
  - rewrite (er_ok_flatten _ (get_data_if a1 lmv2_de i true)) by (apply er_get_data, er_lmv2). er.
    rewrite (er_get_data _ _ _ (nt_challenge_de cfg)) by apply er_nt_challenge. er.
    do 3 (rewrite (er_get_data _ _ _ unicode_de) by apply er_unicode; er).
    rewrite (er_get_data _ _ _ (buf_de 16)) by apply er_buf. er.
Qed.
End Erasure.

(** ** Two error types related by [R], on the input [b] *)
Lemma within_self b : within b b.
Proof.
  exists 0, (len b). split; [lia|]. unfold sub, len. rewrite Nat2N.id. cbn. now rewrite firstn_all.
Qed.
Lemma within_skip b n i : within b i -> within b (skipn n i).
Proof.
  intros (o & m & H & ->). destruct (Nat.le_ge_cases n (N.to_nat m)).
  - exists (o + N.of_nat n), (m - N.of_nat n). split; [lia|]. unfold sub.
    rewrite skipn_firstn_comm. f_equal; [lia|]. rewrite skipn_skipn. f_equal. lia.
  - exists o, 0. split; [lia|]. rewrite skipn_all2; [reflexivity|].
    unfold sub. rewrite firstn_length. lia.
Qed.
Lemma within_first b n i : within b i -> within b (firstn n i).
Proof.
  intros (o & m & H & ->). exists o, (N.min (N.of_nat n) m). split; [lia|]. unfold sub.
  rewrite firstn_firstn. f_equal. lia.
Qed.
Lemma within_nil b : within b [].
Proof. exists 0, 0. split; [lia|reflexivity]. Qed.
Lemma within_slice b i s e d : within b i -> slice i s e = Val d -> within b d.
Proof.
  unfold slice. intros Hi H. destruct (_ || _); [discriminate|]. injection H as <-.
  now apply within_first, within_skip.
Qed.

Section Related.
Context (T1 T2 : error_type) (R : err T1 -> err T2 -> Prop) (b : bytes).
Context (R_from : forall i k, within b i -> R (from_error_kind T1 i k) (from_error_kind T2 i k)).
Context (R_append : forall i k e1 e2, within b i -> R e1 e2 -> R (append_error T1 i k e1) (append_error T2 i k e2)).
Context (R_or : forall e1 e2 f1 f2, R e1 e2 -> R f1 f2 -> R (or_error T1 e1 f1) (or_error T2 e2 f2)).
Context (R_context : forall i n e1 e2, within b i -> R e1 e2 -> R (add_context T1 i n e1) (add_context T2 i n e2)).

Inductive related {A} : eres (err T1) A -> eres (err T2) A -> Prop :=
| rel_ok r a : within b r -> related (XOk r a) (XOk r a)
| rel_err e1 e2 : R e1 e2 -> related (XErr e1) (XErr e2)
| rel_inc n : related (XIncomplete n) (XIncomplete n)
| rel_panic w : related (XPanic w) (XPanic w).
Hint Constructors related : core.
Hint Resolve within_skip within_first within_nil within_self : core.
Definition relp {A} (p1 : eparser T1 A) (p2 : eparser T2 A) : Prop :=
  forall i, within b i -> related (p1 i) (p2 i).

Lemma rl_bind {A B} r1 r2 (k1 : bytes -> A -> eres (err T1) B) k2 : related r1 r2 ->
  (forall i a, within b i -> related (k1 i a) (k2 i a)) -> related (xbind r1 k1) (xbind r2 k2).
Proof. intros H K. destruct H; cbn; auto. Qed.
Lemma rl_take n : relp (x_take T1 n) (x_take T2 n).
Proof. intros i Hi. unfold x_take. destruct (_ <? _)%nat; auto. Qed.
Lemma rl_uint n : relp (x_uint T1 n) (x_uint T2 n).
Proof. intros i Hi. apply rl_bind; [now apply rl_take|auto]. Qed.
Lemma rl_tag t : relp (x_tag T1 t) (x_tag T2 t).
Proof. intros i Hi. unfold x_tag. destruct (_ && _); auto. Qed.
Lemma rl_map {A B} p1 p2 (f : A -> B) : relp p1 p2 -> relp (x_map T1 p1 f) (x_map T2 p2 f).
Proof. intros H i Hi. apply rl_bind; [now apply H|auto]. Qed.
Lemma rl_verify {A} p1 p2 (f : A -> bool) : relp p1 p2 -> relp (x_verify T1 p1 f) (x_verify T2 p2 f).
Proof. intros H i Hi. apply rl_bind; [now apply H|]. intros j a Hj. destruct (f a); auto. Qed.
Lemma rl_map_opt {A B} p1 p2 (f : A -> option B) : relp p1 p2 -> relp (x_map_opt T1 p1 f) (x_map_opt T2 p2 f).
Proof. intros H i Hi. apply rl_bind; [now apply H|]. intros j a Hj. destruct (f a); auto. Qed.
Lemma rl_cond {A} c (p1 : eparser T1 A) p2 : relp p1 p2 -> relp (x_cond T1 c p1) (x_cond T2 c p2).
Proof. intros H i Hi. unfold x_cond. destruct c; [|auto]. apply rl_bind; [now apply H|auto]. Qed.
Lemma rl_context {A} n (p1 : eparser T1 A) p2 : relp p1 p2 -> relp (context T1 n p1) (context T2 n p2).
Proof. intros H i Hi. unfold context. destruct (H i Hi); auto. Qed.
Lemma rl_alt2 {A} (p1 : eparser T1 A) p2 q1 q2 : relp p1 p2 -> relp q1 q2 -> relp (x_alt2 T1 p1 q1) (x_alt2 T2 p2 q2).
Proof. intros H K i Hi. unfold x_alt2. destruct (H i Hi); auto. destruct (K i Hi); auto. Qed.
Lemma rl_many0_go {A} fuel (p1 : eparser T1 A) p2 : relp p1 p2 ->
  relp (x_many0_go T1 fuel p1) (x_many0_go T2 fuel p2).
Proof.
  intros H. induction fuel as [|fuel IH]; intros i Hi; [constructor|]. cbn. destruct (H i Hi); auto.
  destruct (_ =? _)%nat; auto. apply rl_bind; [now apply IH|auto].
Qed.
Lemma rl_many0 {A} (p1 : eparser T1 A) p2 : relp p1 p2 -> relp (x_many0 T1 p1) (x_many0 T2 p2).
Proof. intros H i Hi. now apply rl_many0_go. Qed.
Lemma rl_fold_many0_go {A S} fuel (p1 : eparser T1 A) p2 (g : S -> A -> S) : relp p1 p2 ->
  forall acc, relp (x_fold_many0_go T1 fuel p1 g acc) (x_fold_many0_go T2 fuel p2 g acc).
Proof.
  intros H. induction fuel as [|fuel IH]; intros acc i Hi; [constructor|]. cbn. destruct (H i Hi); auto.
  destruct (_ =? _)%nat; auto. now apply IH.
Qed.

Lemma rl_flags cfg : relp (x_flags T1 cfg) (x_flags T2 cfg).
Proof. apply rl_context, rl_verify, rl_uint. Qed.
Lemma rl_field : relp (x_field T1) (x_field T2).
Proof.
  intros i Hi. apply rl_bind; [|auto]. apply rl_context; [|assumption]. intros j Hj.
  repeat (apply rl_bind; [now apply rl_uint|intros]). auto.
Qed.
Lemma rl_get_data {A} f n (p1 : eparser T1 A) p2 i c : relp p1 p2 -> within b i ->
  related (x_get_data_if T1 f n p1 i c) (x_get_data_if T2 f n p2 i c).
Proof.
  intros H Hi. unfold x_get_data_if. destruct c; [|auto]. destruct (_ =? 0); [auto|].
  destruct (slice _ _ _) as [d|w] eqn:E; cbn [xlift]; [|auto]. apply within_slice with (b := b) in E; [|assumption].
  apply rl_bind; [|auto]. now apply rl_context; [apply rl_context|].
Qed.
Lemma rl_get_many {A} f n (p1 : eparser T1 A) p2 i c : relp p1 p2 -> within b i ->
  related (x_get_many_if T1 f n p1 i c) (x_get_many_if T2 f n p2 i c).
Proof.
  intros H Hi. unfold x_get_many_if. destruct c; [|auto]. destruct (_ =? 0); [auto|].
  destruct (slice _ _ _) as [d|w] eqn:E; cbn [xlift]; [|auto]. apply within_slice with (b := b) in E; [|assumption].
  apply rl_bind; [|auto]. now apply rl_context; [apply rl_many0|].
Qed.
Lemma rl_oem : relp (x_oem T1) (x_oem T2).
Proof. apply rl_context, rl_map_opt. intros i Hi. unfold x_rest. auto. Qed.
Lemma rl_unicode : relp (x_unicode T1) (x_unicode T2).
Proof. apply rl_context. intros i Hi. apply rl_fold_many0_go; [|assumption]. apply rl_map_opt, rl_uint. Qed.
Lemma rl_buf s n : relp (x_buf T1 s n) (x_buf T2 s n).
Proof. apply rl_context, rl_take. Qed.
Ltac step := apply rl_bind;
  [ first [ assumption
          | repeat first [ apply rl_context | apply rl_verify | apply rl_uint | apply rl_take | apply rl_tag
                  | apply rl_flags | apply rl_field | apply rl_buf ]; assumption ] | intros ].
Lemma rl_version : relp (x_version T1) (x_version T2).
Proof. apply rl_context. intros i Hi. repeat step. auto. Qed.
Lemma rl_filetime cfg : relp (x_filetime T1 cfg) (x_filetime T2 cfg).
Proof.
  intros i Hi. apply rl_bind; [apply rl_context; [|assumption]; intros j Hj; repeat step; auto|].
  intros j a Hj. cbv zeta. destruct (ft_to_system_time _ _); auto.
Qed.
Lemma rl_single_host : relp (x_single_host T1) (x_single_host T2).
Proof. apply rl_context. intros i Hi. repeat step. auto. Qed.
Lemma rl_signature : relp (x_signature T1) (x_signature T2).
Proof. apply rl_context. intros i Hi. repeat step. auto. Qed.
Lemma rl_av_id : relp (x_av_id T1) (x_av_id T2).
Proof. apply rl_context, rl_map_opt, rl_uint. Qed.
Lemma rl_av_flags : relp (x_av_flags T1) (x_av_flags T2).
Proof. intros i Hi. step. auto. Qed.
Lemma rl_assert {A} cfg r (k1 : eres (err T1) A) k2 : related k1 k2 ->
  related (x_assert_consumed T1 cfg r k1) (x_assert_consumed T2 cfg r k2).
Proof. unfold x_assert_consumed. destruct (_ && _); auto. Qed.

(** the value read by [length_data] is a part of the input too *)
Lemma av_head_cases i : within b i ->
  let h := fun T i => run (r, id) <- x_av_id T i;
                     run (r, data) <- x_length_data T (x_uint T 2) r; XOk r (id, data) in
  (exists r id d, context T1 "AvPair" (h T1) i = XOk r (id, d) /\ context T2 "AvPair" (h T2) i = XOk r (id, d)
     /\ within b r /\ within b d)
  \/ (exists e1 e2, context T1 "AvPair" (h T1) i = XErr e1 /\ context T2 "AvPair" (h T2) i = XErr e2 /\ R e1 e2)
  \/ (exists n, context T1 "AvPair" (h T1) i = XIncomplete n /\ context T2 "AvPair" (h T2) i = XIncomplete n)
  \/ (exists w, context T1 "AvPair" (h T1) i = XPanic w /\ context T2 "AvPair" (h T2) i = XPanic w).
Proof.
  intros Hi h. unfold context, h. destruct (rl_av_id i Hi) as [r id Hr|e1 e2 He|n|w]; cbn [xbind].
  - unfold x_length_data. destruct (rl_uint 2 r Hr) as [r' l Hr'|e1 e2 He|n|w]; cbn [xbind].
    + destruct (_ <? _); cbn [xbind]; [right; right; left; eauto|left]. do 3 eexists. repeat split; auto.
    + right; left. do 2 eexists. repeat split; auto.
    + right; right; left; eauto.
    + right; right; right; eauto.
  - right; left. do 2 eexists. repeat split; auto.
  - right; right; left; eauto.
  - right; right; right; eauto.
Qed.
Lemma rl_av_pair cfg : relp (x_av_pair T1 cfg) (x_av_pair T2 cfg).
Proof.
  intros i Hi. unfold x_av_pair.
  destruct (av_head_cases i Hi) as [(r & id & d & -> & -> & Hr & Hd)|[(e1 & e2 & -> & -> & He)|[(n & -> & ->)|(w & -> & ->)]]];
    cbn [xbind fst snd]; auto.
  destruct id; try (apply rl_bind; [first [now apply rl_unicode | now apply rl_av_flags | now apply rl_filetime
    | now apply rl_single_host | now apply rl_take]|intros; apply rl_assert; auto]).
  destruct (negb _); auto.
Qed.
Lemma rl_lmv1 : relp (x_lmv1 T1) (x_lmv1 T2).
Proof. apply rl_map, rl_context, rl_buf. Qed.
Lemma rl_lmv2 : relp (x_lmv2 T1) (x_lmv2 T2).
Proof. apply rl_context. intros i Hi. repeat step. auto. Qed.
Lemma rl_lm_challenge : relp (x_lm_challenge T1) (x_lm_challenge T2).
Proof. apply rl_alt2; [apply rl_lmv2|apply rl_lmv1]. Qed.
Lemma rl_ntv2 cfg : relp (x_ntv2 T1 cfg) (x_ntv2 T2 cfg).
Proof.
  apply rl_context. intros i Hi. do 4 step. apply rl_bind; [now apply rl_filetime|intros]. do 2 step.
  apply rl_bind; [now apply rl_many0; [apply rl_av_pair|]|auto].
Qed.
Lemma rl_nt_challenge cfg : relp (x_nt_challenge T1 cfg) (x_nt_challenge T2 cfg).
Proof. apply rl_alt2; [apply rl_map, rl_ntv2|apply rl_map, rl_context, rl_buf]. Qed.
Lemma rl_negotiate cfg : relp (x_negotiate T1 cfg) (x_negotiate T2 cfg).
Proof.
  intros i Hi. unfold x_negotiate.
  apply rl_bind; [apply rl_context; [|assumption]; intros j Hj; repeat step; auto|intros]. cbv zeta.
  apply rl_bind; [apply rl_cond; [apply rl_context, rl_version|assumption]|intros].
  apply rl_bind; [apply rl_get_data; [apply rl_oem|assumption]|intros].
  apply rl_bind; [apply rl_get_data; [apply rl_oem|assumption]|auto].
Qed.
Lemma rl_reserved cfg : relp (x_parse_reserved T1 cfg) (x_parse_reserved T2 cfg).
Proof. unfold x_parse_reserved. destruct (strict cfg); [apply rl_verify|]; apply rl_uint. Qed.
Lemma rl_challenge cfg : relp (x_challenge T1 cfg) (x_challenge T2 cfg).
Proof.
  intros i Hi. unfold x_challenge.
  apply rl_bind.
  - apply rl_context; [|assumption]. intros j Hj. do 5 step.
    apply rl_bind; [apply rl_context; [apply rl_reserved|assumption]|intros]. step. auto.
  - intros rest [[[tf fl] sc] inf] Hr.
    apply rl_bind; [apply rl_cond; [apply rl_context, rl_version|assumption]|intros].
    apply rl_bind; [apply rl_get_data; [apply rl_unicode|assumption]|intros].
    apply rl_bind; [apply rl_get_many; [apply rl_av_pair|assumption]|intros].
    destruct (last_is_not_eol _); [|auto].
    destruct (slice _ _ _) as [d|w] eqn:E; cbn [xlift]; [|auto].
    apply within_slice with (b := b) in E; auto.
Qed.
Lemma rl_ok_flatten {A} (r1 : eres (err T1) (option A)) r2 : related r1 r2 ->
  related (x_ok_flatten T1 r1) (x_ok_flatten T2 r2).
Proof. intros H. destruct H; cbn; auto. Qed.
Lemma rl_authenticate cfg : relp (x_authenticate T1 cfg) (x_authenticate T2 cfg).
Proof.
  intros i Hi. unfold x_authenticate.
  apply rl_bind; [apply rl_context; [|assumption]; intros j Hj; repeat step; auto|].
  intros rest [[[[[[lmf ntf] df] uf] wf] kf] fl] Hr.
  apply rl_bind; [apply rl_cond; [apply rl_context, rl_version|assumption]|intros].
  apply rl_bind; [apply rl_context; [apply rl_buf|assumption]|intros].
  apply rl_bind.
  { destruct (has_flag _ _); apply rl_ok_flatten, rl_get_data; auto; [apply rl_lmv1|apply rl_lmv2]. }
  intros. apply rl_bind; [apply rl_get_data; [apply rl_nt_challenge|assumption]|intros].
  do 3 (apply rl_bind; [apply rl_get_data; [apply rl_unicode|assumption]|intros]).
  apply rl_bind; [apply rl_get_data; [apply rl_buf|assumption]|auto].
Qed.
End Related.
