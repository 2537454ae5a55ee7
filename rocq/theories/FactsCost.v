(** Work of the decoders. *)
From Verif Require Import Base Nom Unicode Wire Structures Messages Spec Lib Encode Decode RoundTrip Parse Samples SamplesCost Cost.

(** ** Fixed costs *)
Definition runs {A : Type} (x : N * pres A) (y : pres A) (k : N) (Q : bytes -> A -> Prop) : Prop :=
  snd x = y /\ fst x <= k /\ forall r a, y = POk r a -> Q r a.
Lemma runs_bind {A B} (x : N * pres A) y (f : bytes -> A -> N * pres B) g k1 k2 Q R :
  runs x y k1 Q -> (forall r a, Q r a -> runs (f r a) (g r a) k2 R) -> runs (cbind x f) (pbind y g) (k1 + k2) R.
Proof.
  intros (E & L & H) Hf. unfold cbind. rewrite E. destruct y as [r a|e|w]; cbn [pbind].
  - destruct (Hf r a (H r a eq_refl)) as (E' & L' & H'). split; [exact E'|]. split; [cbn; lia|exact H'].
  - split; [reflexivity|]. split; [cbn; lia|discriminate].
  - split; [reflexivity|]. split; [cbn; lia|discriminate].
Qed.
Lemma runs_free {A} (y : pres A) (Q : bytes -> A -> Prop) : (forall r a, y = POk r a -> Q r a) -> runs (free y) y 0 Q.
Proof. intros H. split; [reflexivity|]. split; [cbn; lia|exact H]. Qed.
Lemma runs_weaken {A} (x : N * pres A) y k k' (Q R : bytes -> A -> Prop) :
  runs x y k Q -> k <= k' -> (forall r a, Q r a -> R r a) -> runs x y k' R.
Proof. intros (E & L & H) Hk HQ. split; [exact E|]. split; [lia|auto]. Qed.

Definition rest_bytes {A : Type} (r : bytes) (_ : A) : Prop := is_bytes r.
Definition any {A : Type} (_ : bytes) (_ : A) : Prop := True.
Lemma runs_take n i : is_bytes i -> runs (c_take n i) (take n i) (1 + N.of_nat n) (fun r a => is_bytes r /\ is_bytes a /\ length a = n).
Proof.
  intros Hb. unfold c_take, take. destruct (length i <? n)%nat eqn:E.
  - split; [reflexivity|]. split; [cbn; lia|discriminate].
  - split; [reflexivity|]. split; [cbn; lia|]. intros r a H. injection H as <- <-.
    split; [now apply drop_bytes with (k := N.of_nat n) in Hb; unfold drop in Hb; rewrite Nat2N.id in Hb|].
    split; [|rewrite firstn_length; lia]. rewrite <- (firstn_skipn n i) in Hb. now apply Forall_app in Hb.
Qed.
Lemma le_dec_bound b : is_bytes b -> le_dec b < 256 ^ len b.
Proof.
  induction 1 as [|x b Hx _ IH]; [reflexivity|]. cbn [le_dec]. rewrite len_cons, N.pow_add_r.
  change (256 ^ 1) with 256. unfold is_u8 in Hx. nia.
Qed.
Lemma runs_uint k i : is_bytes i -> runs (c_uint k i) (le_uint k i) (1 + N.of_nat k) (fun r a => is_bytes r /\ a < 256 ^ N.of_nat k).
Proof.
  intros Hb. unfold c_uint, le_uint. replace (1 + N.of_nat k) with (1 + N.of_nat k + 0) by lia.
  eapply runs_bind; [now apply runs_take|]. intros r a (H1 & H2 & H3). cbn beta. apply runs_free.
  intros r' a' H. injection H as <- <-. split; [exact H1|]. pose proof (le_dec_bound a H2) as L. unfold len in L. now rewrite H3 in L.
Qed.
Lemma runs_verify {A} (p : cparser A) q f i k Q :
  runs (p i) (q i) k Q -> runs (c_verify p f i) (verify q f i) k Q.
Proof.
  intros H. unfold c_verify, verify. replace k with (k + 0) by lia. eapply runs_bind; [exact H|].
  intros r a Ha. cbn beta. apply runs_free. intros r' a' E. destruct (f a); [injection E as <- <-; exact Ha|discriminate].
Qed.
Lemma runs_map {A B} (p : cparser A) q (f : A -> B) i k (Q : bytes -> A -> Prop) (R : bytes -> B -> Prop) :
  runs (p i) (q i) k Q -> (forall r a, Q r a -> R r (f a)) -> runs (c_map p f i) (pmap q f i) k R.
Proof.
  intros H HR. unfold c_map, pmap. replace k with (k + 0) by lia. eapply runs_bind; [exact H|].
  intros r a Ha. cbn beta. apply runs_free. intros r' a' E. injection E as <- <-. now apply HR.
Qed.
Lemma runs_cond {A} b (p : cparser A) q i k : is_bytes i ->
  runs (p i) (q i) k rest_bytes -> runs (c_cond b p i) (cond b q i) k rest_bytes.
Proof.
  intros Hb H. unfold c_cond, cond. destruct b.
  - replace k with (k + 0) by lia. eapply runs_bind; [exact H|].
    intros r a Ha. cbn beta. apply runs_free. intros r' a' E. injection E as <- <-. exact Ha.
  - apply runs_weaken with (k := 0) (Q := rest_bytes); [apply runs_free|lia|auto].
    intros r a E. injection E as <- <-. exact Hb.
Qed.
Ltac next H := eapply runs_bind; [|intros ? ? H; cbn beta].
Lemma runs_field i : is_bytes i -> runs (c_field i) (field_de i) 11 (fun r f => is_bytes r /\ f_len f < 65536).
Proof.
  intros Hb. unfold c_field, field_de. change 11 with (3 + (3 + (5 + 0))).
  next H1; [now apply (runs_uint 2)|]. destruct H1 as [B1 L1].
  next H2; [now apply (runs_uint 2)|]. destruct H2 as [B2 L2].
  next H3; [now apply (runs_uint 4)|]. destruct H3 as [B3 L3].
  apply runs_free. intros rr ff E. injection E as <- <-. split; [exact B3|exact L1].
Qed.
Lemma runs_version i : is_bytes i -> runs (c_version i) (version_de i) 13 rest_bytes.
Proof.
  intros Hb. unfold c_version, version_de. change 13 with (2 + (2 + (3 + (4 + (2 + 0))))).
  next H1; [now apply (runs_uint 1)|]. destruct H1 as [B1 _].
  next H2; [now apply (runs_uint 1)|]. destruct H2 as [B2 _].
  next H3; [now apply (runs_uint 2)|]. destruct H3 as [B3 _].
  next H4; [apply runs_verify; now apply (runs_uint 3)|]. destruct H4 as [B4 _].
  next H5; [apply runs_verify; now apply (runs_uint 1)|]. destruct H5 as [B5 _].
  apply runs_free. intros rr ff E. injection E as <- <-. exact B5.
Qed.
Lemma runs_flags cfg i : is_bytes i -> runs (c_flags cfg i) (flags_de cfg i) 5 rest_bytes.
Proof.
  intros Hb. unfold c_flags, flags_de. apply runs_verify. eapply runs_weaken; [now apply (runs_uint 4)|cbn; lia|].
  now intros r a [H _].
Qed.
Lemma runs_filetime cfg i : is_bytes i -> runs (c_filetime cfg i) (filetime_de cfg i) 10 rest_bytes.
Proof.
  intros Hb. unfold c_filetime, filetime_de. change 10 with (5 + (5 + 0)).
  next H1; [now apply (runs_uint 4)|]. destruct H1 as [B1 _].
  next H2; [now apply (runs_uint 4)|]. destruct H2 as [B2 _].
  apply runs_free. intros rr ff E. destruct (ft_to_system_time _ _); [|discriminate]. injection E as <- <-. exact B2.
Qed.

(** ** Costs by bytes consumed *)
Definition spends {A : Type} (x : N * pres A) (y : pres A) (i : bytes) (k : N) : Prop :=
  snd x = y /\ match y with
               | POk r _ => len r <= len i /\ fst x + len r <= len i + k
               | _ => fst x <= len i + k
               end.
Lemma spends_bind {A B} (x : N * pres A) y (f : bytes -> A -> N * pres B) g i k1 k2 :
  spends x y i k1 -> (forall r a, spends (f r a) (g r a) r k2) -> spends (cbind x f) (pbind y g) i (k1 + k2).
Proof.
  intros (E & L) Hf. unfold cbind. rewrite E. destruct y as [r a|e|w]; cbn [pbind].
  - destruct (Hf r a) as (E' & L'). split; [exact E'|]. cbn [fst]. destruct (g r a); lia.
  - split; [reflexivity|]. cbn [fst]. lia.
  - split; [reflexivity|]. cbn [fst]. lia.
Qed.
Lemma spends_ok {A} (v : A) r : spends (free (POk r v)) (POk r v) r 0.
Proof. split; [reflexivity|]. cbn [fst free]. lia. Qed.
Lemma spends_err {A} e r : spends (free (PErr e : pres A)) (PErr e) r 0.
Proof. split; [reflexivity|]. cbn [fst free]. lia. Qed.
Lemma spends_take n i : spends (c_take n i) (take n i) i 1.
Proof.
  unfold c_take, take. destruct (length i <? n)%nat eqn:E; (split; [reflexivity|]); cbn [fst].
  - lia.
  - unfold len. rewrite skipn_length. lia.
Qed.
Lemma spends_uint n i : spends (c_uint n i) (le_uint n i) i 1.
Proof. unfold c_uint, le_uint. change 1 with (1 + 0). eapply spends_bind; [apply spends_take|]. intros r a. apply spends_ok. Qed.
Lemma spends_verify {A} (p : cparser A) q f i k : spends (p i) (q i) i k -> spends (c_verify p f i) (verify q f i) i k.
Proof.
  intros H. unfold c_verify, verify. replace k with (k + 0) by lia. eapply spends_bind; [exact H|].
  intros r a. cbn beta. destruct (f a); [apply spends_ok|apply spends_err].
Qed.
Lemma spends_filetime cfg i : spends (c_filetime cfg i) (filetime_de cfg i) i 2.
Proof.
  unfold c_filetime, filetime_de. change 2 with (1 + (1 + 0)). eapply spends_bind; [apply spends_uint|]. intros r1 a1. cbn beta.
  eapply spends_bind; [apply spends_uint|]. intros r2 a2. cbn beta zeta.
  destruct (ft_to_system_time _ _); [apply spends_ok|apply spends_err].
Qed.
Lemma spends_av_flags i : spends (c_av_flags i) (av_flags_de i) i 1.
Proof.
  unfold c_av_flags, av_flags_de. change 1 with (1 + 0).
  eapply spends_bind; [apply spends_verify, spends_uint|]. intros r a. apply spends_ok.
Qed.
Lemma spends_single_host i : spends (c_single_host i) (single_host_de i) i 4.
Proof.
  unfold c_single_host, single_host_de. change 4 with (1 + (1 + (1 + (1 + 0)))).
  eapply spends_bind; [apply spends_uint|]. intros r1 a1. cbn beta.
  eapply spends_bind; [apply spends_verify, spends_uint|]. intros r2 a2. cbn beta.
  eapply spends_bind; [apply spends_take|]. intros r3 a3. cbn beta.
  eapply spends_bind; [apply spends_take|]. intros r4 a4. apply spends_ok.
Qed.

(** ** Loops: [a] units for every byte, [k] for the last turn *)
Definition turn {A : Type} (p : cparser A) (q : parser A) (a k : N) : Prop := forall i,
  snd (p i) = q i
  /\ match q i with
     | POk r _ => len r < len i /\ 1 + fst (p i) + a * len r <= a * len i
     | _ => 1 + fst (p i) <= a * len i + k
     end.
Lemma many0_cost {A} (p : cparser A) q a k : turn p q a k -> forall fuel i, (length i < fuel)%nat ->
  snd (c_many0_go fuel p i) = many0_go fuel q i /\ fst (c_many0_go fuel p i) <= a * len i + k.
Proof.
  intros T. induction fuel as [|n IH]; intros i Hf; [lia|]. cbn [c_many0_go many0_go].
  destruct (T i) as [E H]. rewrite E. destruct (q i) as [r v|[|]|w].
  - destruct H as [H1 H2]. replace (length r =? length i)%nat with false by (unfold len in H1; lia).
    destruct (IH r ltac:(unfold len in H1; lia)) as [E' L']. unfold cbind. rewrite E'.
    destruct (many0_go n q r); cbn [pbind fst snd free]; (split; [reflexivity|lia]).
  - split; [reflexivity|]. cbn [fst]. lia.
  - split; [reflexivity|]. cbn [fst]. lia.
  - split; [reflexivity|]. cbn [fst]. lia.
Qed.
Lemma fold_many0_cost {A R} (p : cparser A) q (g : R -> A -> R) a k : turn p q a k -> forall fuel acc i, (length i < fuel)%nat ->
  snd (c_fold_many0_go fuel p g acc i) = fold_many0_go fuel q g acc i /\ fst (c_fold_many0_go fuel p g acc i) <= a * len i + k.
Proof.
  intros T. induction fuel as [|n IH]; intros acc i Hf; [lia|]. cbn [c_fold_many0_go fold_many0_go].
  destruct (T i) as [E H]. rewrite E. destruct (q i) as [r v|[|]|w].
  - destruct H as [H1 H2]. replace (length r =? length i)%nat with false by (unfold len in H1; lia).
    destruct (IH (g acc v) r ltac:(unfold len in H1; lia)) as [E' L']. cbn [fst snd]. split; [exact E'|lia].
  - split; [reflexivity|]. cbn [fst]. lia.
  - split; [reflexivity|]. cbn [fst]. lia.
  - split; [reflexivity|]. cbn [fst]. lia.
Qed.
Lemma u16_shape i :
  (exists e, c_uint 2 i = (1, PErr e) /\ le_u16 i = PErr e)
  \/ (exists r v, c_uint 2 i = (3, POk r v) /\ le_u16 i = POk r v /\ len i = 2 + len r).
Proof.
  unfold c_uint, le_u16, le_uint, c_take, take, cbind. destruct (length i <? 2)%nat eqn:E; cbn [fst snd pbind free].
  - left. eexists. now split.
  - right. do 2 eexists. split; [reflexivity|]. split; [reflexivity|]. unfold len. rewrite skipn_length. lia.
Qed.
Lemma unit_turn : turn (c_map_opt (c_uint 2) unicode_unit) (map_opt le_u16 unicode_unit) 2 4.
Proof.
  intros i. unfold c_map_opt, map_opt, cbind. destruct (u16_shape i) as [(e & -> & ->)|(r & v & -> & -> & L)]; cbn [fst snd pbind].
  - split; [reflexivity|]. lia.
  - destruct (unicode_unit v); cbn [fst snd pbind free]; (split; [reflexivity|]); lia.
Qed.
Lemma unicode_cost i : snd (c_unicode i) = unicode_de i /\ fst (c_unicode i) <= 2 * len i + 4.
Proof. apply fold_many0_cost; [exact unit_turn|lia]. Qed.

(** A value: two units for every byte and four more. *)
Lemma assert_consumed_cases {A} cfg r (v : pres A) : assert_consumed cfg r v = v \/ exists w, assert_consumed cfg r v = PPanic w.
Proof. unfold assert_consumed. destruct (debug cfg && negb (is_nil r)); [right; eexists; reflexivity|now left]. Qed.
Definition value_cost {A : Type} (x : N * pres A) (y : pres A) (rest data : bytes) : Prop :=
  snd x = y /\ fst x <= 2 * len data + 4 /\ forall r a, y = POk r a -> r = rest.
Lemma value_of {A B} cfg (p : cparser B) q (f : B -> A) rest data :
  snd (p data) = q data -> fst (p data) <= 2 * len data + 4 ->
  value_cost (pay (r, s) <- p data; free (assert_consumed cfg r (POk rest (f s))))
             (do (r, s) <- q data; assert_consumed cfg r (POk rest (f s))) rest data.
Proof.
  intros E L. unfold cbind. rewrite E. destruct (q data) as [r s|e|w]; cbn [pbind free fst snd].
  - split; [reflexivity|]. split; [cbn [fst]; lia|]. intros r' a.
    destruct (assert_consumed_cases cfg r (POk rest (f s))) as [->|[w ->]]; [now intros [= <- _]|discriminate].
  - split; [reflexivity|]. split; [cbn [fst]; lia|discriminate].
  - split; [reflexivity|]. split; [cbn [fst]; lia|discriminate].
Qed.
Lemma spends_value {A} (x : N * pres A) y i k : spends x y i k -> k <= 4 -> snd x = y /\ fst x <= 2 * len i + 4.
Proof. intros [E H] Hk. split; [exact E|]. destruct y; lia. Qed.
Lemma id_shape i :
  (exists c e, c_av_id i = (c, PErr e) /\ av_id_de i = PErr e /\ c <= 3)
  \/ (exists r d, c_av_id i = (3, POk r d) /\ av_id_de i = POk r d /\ len i = 2 + len r).
Proof.
  unfold c_av_id, av_id_de, c_map_opt, map_opt, cbind.
  destruct (u16_shape i) as [(e & -> & ->)|(r & v & -> & -> & L)]; cbn [fst snd pbind].
  - left. exists 1, e. repeat split; lia.
  - destruct (av_id_of v) as [d|]; cbn [fst snd free].
    + right. exists r, d. now repeat split.
    + left. exists 3. eexists. split; [reflexivity|]. split; [reflexivity|lia].
Qed.
Lemma data_shape i :
  (exists c e, c_length_data (c_uint 2) i = (c, PErr e) /\ length_data le_u16 i = PErr e /\ c <= 3)
  \/ (exists r d, c_length_data (c_uint 2) i = (3, POk r d) /\ length_data le_u16 i = POk r d /\ len i = 2 + len d + len r).
Proof.
  unfold c_length_data, length_data, cbind.
  destruct (u16_shape i) as [(e & -> & ->)|(r & v & -> & -> & L)]; cbn [fst snd pbind].
  - left. exists 1, e. repeat split; lia.
  - destruct (len r <? v) eqn:E; cbn [fst snd free].
    + left. exists 3. eexists. split; [reflexivity|]. split; [reflexivity|lia].
    + right. do 2 eexists. split; [reflexivity|]. split; [reflexivity|].
      unfold len in *. rewrite firstn_length, skipn_length. lia.
Qed.
Lemma cbind_ok {A B} c r (a : A) (f : bytes -> A -> N * pres B) : cbind (c, POk r a) f = (c + fst (f r a), snd (f r a)).
Proof. reflexivity. Qed.
Lemma cbind_err {A B} c e (f : bytes -> A -> N * pres B) : cbind (c, PErr e) f = (c, PErr e).
Proof. reflexivity. Qed.
Lemma pair_turn cfg : turn (c_av_pair cfg) (av_pair_de cfg) 3 11.
Proof.
  intros i. unfold c_av_pair, av_pair_de.
  destruct (id_shape i) as [(c & e & -> & -> & L)|(r & d & -> & -> & L)]; cbn [pbind]; [rewrite cbind_err; cbn [fst snd]; split; [reflexivity|lia]|]. rewrite cbind_ok.
  destruct (data_shape r) as [(c & e & -> & -> & L')|(r' & data & -> & -> & L')]; cbn [pbind]; [rewrite cbind_err; cbn [fst snd]; split; [reflexivity|lia]|]. rewrite cbind_ok. cbn [fst snd].
  - match goal with |- context [3 + (3 + fst ?x)] =>
      match goal with |- context [snd x = ?y] => assert (V : value_cost x y r' data) end end.
    { destruct d; try (apply value_of; apply unicode_cost).
      - unfold free. split; [reflexivity|]. split; [cbn [fst]; lia|]. intros r0 a. destruct (negb (is_nil data)); [discriminate|now intros [= <- _]].
      - apply value_of; eapply spends_value; try apply spends_av_flags; lia.
      - apply value_of; eapply spends_value; try apply spends_filetime; lia.
      - apply value_of; eapply spends_value; try apply spends_single_host; lia.
      - apply value_of; eapply spends_value; try apply spends_take; lia. }
    destruct V as (E & V & R). cbn [fst snd]. split; [exact E|].
    match goal with |- match ?y with _ => _ end => destruct y as [r0 a|e|w] end.
    + rewrite (R r0 a eq_refl). lia.
    + lia.
    + lia.
Qed.
Lemma pairs_cost cfg i : snd (c_many0 (c_av_pair cfg) i) = many0 (av_pair_de cfg) i /\ fst (c_many0 (c_av_pair cfg) i) <= 3 * len i + 11.
Proof. apply many0_cost; [apply pair_turn|lia]. Qed.

(** ** Fields *)
Definition worth {A : Type} (p : cparser A) (q : parser A) (a k : N) : Prop :=
  forall d, snd (p d) = q d /\ fst (p d) <= a * len d + k.
Definition reach (b : bytes) : N := N.min (len b) 65535.
Lemma slice_len b s n d : slice b s (s + n) = Val d -> len d = n /\ n <= len b.
Proof.
  unfold slice. destruct (_ || _) eqn:E; [discriminate|]. intros [= <-]. unfold len in *.
  rewrite firstn_length, skipn_length. lia.
Qed.
Lemma data_cost {T} f (p : cparser T) q b c a k : f_len f < 65536 -> worth p q a k ->
  runs (c_get_data_if f p b c) (get_data_if f q b c) (1 + a * reach b + k) any.
Proof.
  intros Hf H. unfold c_get_data_if, get_data_if, c_slice, get_range. cbn [fst snd].
  destruct c; [|split; [reflexivity|split; [cbn; lia|easy]]].
  destruct (f_len f =? 0); [split; [reflexivity|split; [cbn; lia|easy]]|].
  destruct (slice b (f_offset f) (f_offset f + f_len f)) as [d|w] eqn:E; cbn [plift].
  - destruct (slice_len _ _ _ _ E) as [L1 L2]. destruct (H d) as [E1 L3]. unfold cbind. rewrite E1.
    assert (a * len d <= a * reach b) by (apply N.mul_le_mono_l; unfold reach; lia).
    destruct (q d); cbn [pbind fst snd free]; (split; [reflexivity|]; split; [cbn [fst]; lia|easy]).
  - split; [reflexivity|]. split; [cbn [fst]; lia|easy].
Qed.
Lemma many_cost {T} f (p : cparser T) q b c a k : f_len f < 65536 -> worth (c_many0 p) (many0 q) a k ->
  runs (c_get_many_if f p b c) (get_many_if f q b c) (1 + a * reach b + k) any.
Proof.
  intros Hf H. unfold c_get_many_if, get_many_if, c_slice, get_range. cbn [fst snd].
  destruct c; [|split; [reflexivity|split; [cbn; lia|easy]]].
  destruct (f_len f =? 0); [split; [reflexivity|split; [cbn; lia|easy]]|].
  destruct (slice b (f_offset f) (f_offset f + f_len f)) as [d|w] eqn:E; cbn [plift].
  - destruct (slice_len _ _ _ _ E) as [L1 L2]. destruct (H d) as [E1 L3]. unfold cbind. rewrite E1.
    assert (a * len d <= a * reach b) by (apply N.mul_le_mono_l; unfold reach; lia).
    destruct (many0 q d); cbn [pbind fst snd free]; (split; [reflexivity|]; split; [cbn [fst]; lia|easy]).
  - split; [reflexivity|]. split; [cbn [fst]; lia|easy].
Qed.

(** ** Structures held by fields *)
Lemma worth_take n : worth (c_take n) (take n) 0 (1 + N.of_nat n).
Proof. intros d. unfold c_take, take. destruct (length d <? n)%nat; (split; [reflexivity|cbn [fst]; lia]). Qed.
Lemma worth_uint n : worth (c_uint n) (le_uint n) 0 (1 + N.of_nat n).
Proof.
  intros d. destruct (worth_take n d) as [E L]. unfold c_uint, le_uint, cbind. rewrite E.
  destruct (take n d); cbn [pbind fst snd free]; (split; [reflexivity|lia]).
Qed.
Lemma worth_bind {A B} (p : cparser A) q (f : A -> cparser B) g a k1 k2 :
  worth p q 0 k1 -> (forall v, worth (f v) (g v) a k2) -> (forall d r v, q d = POk r v -> len r <= len d) ->
  worth (fun d => pay (r, v) <- p d; f v r) (fun d => do (r, v) <- q d; g v r) a (k1 + k2).
Proof.
  intros H Hf Hr d. destruct (H d) as [E L]. unfold cbind. rewrite E. destruct (q d) as [r v|e|w] eqn:Eq; cbn [pbind fst snd].
  - destruct (Hf v r) as [E' L']. split; [exact E'|]. assert (a * len r <= a * len d) by (apply N.mul_le_mono_l; eapply Hr; exact Eq). lia.
  - split; [reflexivity|lia].
  - split; [reflexivity|lia].
Qed.
Lemma worth_oem : worth c_oem oem_de 1 1.
Proof. intros d. split; [reflexivity|]. cbn [c_oem fst]. lia. Qed.
Lemma worth_unicode : worth c_unicode unicode_de 2 4.
Proof. exact unicode_cost. Qed.
Lemma worth_pairs cfg : worth (c_many0 (c_av_pair cfg)) (many0 (av_pair_de cfg)) 3 11.
Proof. exact (pairs_cost cfg). Qed.
Lemma worth_free {A} (v : bytes -> pres A) : worth (fun r => free (v r)) v 0 0.
Proof. intros d. split; [reflexivity|]. cbn [fst free]. lia. Qed.
Lemma worth_more {A} (p : cparser A) q a a' k k' : worth p q a k -> a <= a' -> k <= k' -> worth p q a' k'.
Proof. intros H Ha Hk d. destruct (H d) as [E L]. split; [exact E|]. assert (a * len d <= a' * len d) by (now apply N.mul_le_mono_r). lia. Qed.
Lemma take_shrinks n d r v : take n d = POk r v -> len r <= len d.
Proof. unfold take. destruct (_ <? _)%nat; [discriminate|]. intros [= <- _]. unfold len. rewrite skipn_length. lia. Qed.
Lemma uint_shrinks n d r v : le_uint n d = POk r v -> len r <= len d.
Proof. unfold le_uint. destruct (take n d) eqn:E; cbn [pbind]; [|discriminate|discriminate]. intros [= <- _]. now apply take_shrinks in E. Qed.
Lemma verify_shrinks {A} (q : parser A) f d r v : (forall r v, q d = POk r v -> len r <= len d) -> verify q f d = POk r v -> len r <= len d.
Proof. intros H. unfold verify. destruct (q d) eqn:E; cbn [pbind]; [|discriminate|discriminate]. destruct (f _); [|discriminate]. intros [= <- _]. eapply H, eq_refl. Qed.
Lemma worth_verify {A} (p : cparser A) q f a k : worth p q a k -> worth (c_verify p f) (verify q f) a k.
Proof.
  intros H d. destruct (H d) as [E L]. unfold c_verify, verify, cbind. rewrite E.
  destruct (q d); cbn [pbind fst snd free]; (split; [reflexivity|lia]).
Qed.
Lemma worth_filetime cfg : worth (c_filetime cfg) (filetime_de cfg) 0 10.
Proof.
  unfold c_filetime, filetime_de. change 10 with (5 + (5 + 0)).
  apply (worth_bind (c_uint 4) (le_uint 4)); [apply worth_uint| |apply uint_shrinks]. intros low.
  apply (worth_bind (c_uint 4) (le_uint 4)); [apply worth_uint| |apply uint_shrinks]. intros high.
  apply worth_free.
Qed.
Lemma filetime_shrinks cfg d r v : filetime_de cfg d = POk r v -> len r <= len d.
Proof.
  pose proof (spends_filetime cfg d) as [_ H]. intros E. rewrite E in H. lia.
Qed.
Lemma worth_map {A B} (p : cparser A) q (f : A -> B) a k : worth p q a k -> worth (c_map p f) (pmap q f) a k.
Proof.
  intros H d. destruct (H d) as [E L]. unfold c_map, pmap, cbind. rewrite E.
  destruct (q d); cbn [pbind fst snd free]; (split; [reflexivity|lia]).
Qed.
Lemma worth_lmv1 : worth c_lmv1 lmv1_de 0 26.
Proof. eapply worth_more; [exact (worth_map _ _ LmV1 _ _ (worth_take 24))|lia|cbn; lia]. Qed.
Lemma worth_lmv2 : worth c_lmv2 lmv2_de 0 26.
Proof.
  unfold c_lmv2, lmv2_de. change 26 with (17 + (9 + 0)).
  apply (worth_bind (c_buf 16) (buf_de 16)); [apply (worth_take 16)| |apply take_shrinks]. intros v.
  apply (worth_bind (c_buf 8) (buf_de 8)); [apply (worth_take 8)| |apply take_shrinks]. intros cc.
  apply worth_free.
Qed.
Lemma worth_ntv2 cfg : worth (c_ntv2 cfg) (ntv2_de cfg) 3 47.
Proof.
  unfold c_ntv2, ntv2_de. change 47 with (2 + (2 + (3 + (5 + (10 + (9 + (5 + 11))))))).
  apply (worth_bind (c_verify (c_uint 1) _) (verify le_u8 _)); [apply worth_verify, (worth_uint 1)| |intros d r v; apply verify_shrinks, uint_shrinks]. intros _.
  apply (worth_bind (c_verify (c_uint 1) _) (verify le_u8 _)); [apply worth_verify, (worth_uint 1)| |intros d r v; apply verify_shrinks, uint_shrinks]. intros _.
  apply (worth_bind (c_verify (c_uint 2) _) (verify le_u16 _)); [apply worth_verify, (worth_uint 2)| |intros d r v; apply verify_shrinks, uint_shrinks]. intros _.
  apply (worth_bind (c_verify (c_uint 4) _) (verify le_u32 _)); [apply worth_verify, (worth_uint 4)| |intros d r v; apply verify_shrinks, uint_shrinks]. intros _.
  apply (worth_bind (c_filetime cfg) (filetime_de cfg)); [apply worth_filetime| |apply filetime_shrinks]. intros ts.
  apply (worth_bind (c_buf 8) (buf_de 8)); [apply (worth_take 8)| |apply take_shrinks]. intros cc.
  apply (worth_bind (c_verify (c_uint 4) _) (verify le_u32 _)); [apply worth_verify, (worth_uint 4)| |intros d r v; apply verify_shrinks, uint_shrinks]. intros _.
  intros d. destruct (worth_pairs cfg d) as [E L]. unfold cbind. rewrite E.
  destruct (many0 (av_pair_de cfg) d); cbn [pbind fst snd free]; (split; [reflexivity|lia]).
Qed.
Lemma worth_nt cfg : worth (c_nt_challenge cfg) (nt_challenge_de cfg) 3 72.
Proof.
  intros d. unfold c_nt_challenge, nt_challenge_de, c_alt2, alt2.
  destruct (worth_map _ _ NtV2 _ _ (worth_ntv2 cfg) d) as [E L]. rewrite E.
  destruct (worth_map _ _ NtV1 _ _ (worth_take 24) d) as [E' L'].
  destruct (pmap (ntv2_de cfg) NtV2 d) as [r v|[|]|w]; cbn [fst snd].
  - split; [exact E|lia].
  - split; [exact E'|unfold c_ntv1, c_buf in *; lia].
  - split; [exact E|lia].
  - split; [exact E|lia].
Qed.

(** ** Messages *)
Lemma runs_tag t i : is_bytes i -> runs (c_tag t i) (tag t i) (1 + len t) rest_bytes.
Proof.
  intros Hb. split; [reflexivity|]. split; [cbn; lia|]. unfold tag. intros r a.
  repeat match goal with |- (if ?c then _ else _) = _ -> _ => destruct c; try discriminate end. intros [= <- _].
  rewrite <- (firstn_skipn (length t) i) in Hb. now apply Forall_app in Hb.
Qed.
Lemma runs_type n i : is_bytes i -> runs (c_verify (c_uint 4) (fun mt => mt =? n) i) (verify le_u32 (fun mt => mt =? n) i) 5 rest_bytes.
Proof.
  intros Hb. apply runs_verify. eapply runs_weaken; [now apply (runs_uint 4)|cbn; lia|]. now intros r a [H _].
Qed.
Lemma runs_buf n i : is_bytes i -> runs (c_buf n i) (buf_de n i) (1 + N.of_nat n) rest_bytes.
Proof. intros Hb. eapply runs_weaken; [now apply runs_take|lia|]. now intros r a [H _]. Qed.
Lemma runs_done {A} r (v : A) : runs (free (POk r v)) (POk r v) 0 any.
Proof. now apply runs_free. Qed.
Lemma negotiate_cost cfg b : is_bytes b -> runs (negotiate_work cfg b) (negotiate_de cfg b) (2 * reach b + 58) any.
Proof.
  intros Hb. unfold negotiate_work, negotiate_de.
  replace (2 * reach b + 58) with (9 + (5 + (5 + (11 + (11 + (13 + ((1 + 1 * reach b + 1) + ((1 + 1 * reach b + 1) + 0)))))))) by lia.
  next B0; [now apply (runs_tag SIGNATURE)|].
  next B1; [now apply runs_type|].
  next B2; [now apply runs_flags|].
  next B3; [now apply runs_field|]. destruct B3 as [B3 L1].
  next B4; [now apply runs_field|]. destruct B4 as [B4 L2].
  next B5; [apply runs_cond; [exact B4|now apply runs_version]|].
  next X1; [apply data_cost; [exact L1|apply worth_oem]|].
  next X2; [apply data_cost; [exact L2|apply worth_oem]|].
  apply runs_done.
Qed.
Lemma challenge_cost cfg b : is_bytes b -> runs (challenge_work cfg b) (challenge_de cfg b) (5 * reach b + 90) any.
Proof.
  intros Hb. unfold challenge_work, challenge_de.
  replace (5 * reach b + 90) with (9 + (5 + (11 + (5 + (9 + (9 + (11 + (13 + ((1 + 2 * reach b + 4) + ((1 + 3 * reach b + 11) + 1)))))))))) by lia.
  next B0; [now apply (runs_tag SIGNATURE)|].
  next B1; [now apply runs_type|].
  next B2; [now apply runs_field|]. destruct B2 as [B2 L1].
  next B3; [now apply runs_flags|].
  next B4; [now apply (runs_buf 8)|].
  next B5; [instantiate (1 := rest_bytes); unfold c_reserved, parse_reserved; destruct (strict cfg);
            [apply runs_verify|]; (eapply runs_weaken; [now apply (runs_uint 8)|cbn; lia|now intros ? ? [H _]])|].
  next B6; [now apply runs_field|]. destruct B6 as [B6 L2].
  next B7; [apply runs_cond; [exact B6|now apply runs_version]|].
  next X1; [apply data_cost; [exact L1|apply worth_unicode]|].
  next X2; [apply many_cost; [exact L2|apply worth_pairs]|].
  destruct (last_is_not_eol _).
  - unfold c_slice. destruct (slice _ _ _); cbn [plift]; (split; [reflexivity|]; split; [cbn; lia|easy]).
  - eapply runs_weaken; [apply runs_done|lia|easy].
Qed.
Lemma runs_flatten {A} (x : N * pres (option A)) y k : runs x y k any -> runs (fst x, ok_flatten (snd x)) (ok_flatten y) k any.
Proof. intros (E & L & _). rewrite E. split; [reflexivity|]. split; [exact L|easy]. Qed.
Lemma authenticate_cost cfg b : is_bytes b -> runs (authenticate_work cfg b) (authenticate_de cfg b) (9 * reach b + 248) any.
Proof.
  intros Hb. unfold authenticate_work, authenticate_de.
  replace (9 * reach b + 248) with (9 + (5 + (11 + (11 + (11 + (11 + (11 + (11 + (5 + (13 + (17 + ((1 + 0 * reach b + 26) +
    ((1 + 3 * reach b + 72) + ((1 + 2 * reach b + 4) + ((1 + 2 * reach b + 4) + ((1 + 2 * reach b + 4) + ((1 + 0 * reach b + 17) + 0))))))))))))))))) by lia.
  next B0; [now apply (runs_tag SIGNATURE)|].
  next B1; [now apply runs_type|].
  next B2; [now apply runs_field|]. destruct B2 as [B2 L1].
  next B3; [now apply runs_field|]. destruct B3 as [B3 L2].
  next B4; [now apply runs_field|]. destruct B4 as [B4 L3].
  next B5; [now apply runs_field|]. destruct B5 as [B5 L4].
  next B6; [now apply runs_field|]. destruct B6 as [B6 L5].
  next B7; [now apply runs_field|]. destruct B7 as [B7 L6].
  next B8; [now apply runs_flags|].
  next B9; [apply runs_cond; [exact B8|now apply runs_version]|].
  next BA; [now apply (runs_buf 16)|].
  next X1; [destruct (has_flag _ NTLMSSP_NEGOTIATE_NTLM); cbv zeta; apply runs_flatten; (apply data_cost; [exact L1|]);
            [apply worth_lmv1|apply worth_lmv2]|].
  next X2; [apply data_cost; [exact L2|apply worth_nt]|].
  next X3; [apply data_cost; [exact L3|apply worth_unicode]|].
  next X4; [apply data_cost; [exact L4|apply worth_unicode]|].
  next X5; [apply data_cost; [exact L5|apply worth_unicode]|].
  next X6; [apply data_cost; [exact L6|apply (worth_take 16)]|].
  apply runs_done.
Qed.

Ltac conjs := match goal with |- _ /\ _ => split; conjs | |- _ => idtac end.
(** ** The claims *)
(** The decoders that count are the decoders. *)
Lemma C100_same_lem : forall cfg b, is_bytes b ->
  snd (negotiate_work cfg b) = negotiate_de cfg b
  /\ snd (challenge_work cfg b) = challenge_de cfg b
  /\ snd (authenticate_work cfg b) = authenticate_de cfg b.
Proof.
  intros cfg b Hb. split; [apply (negotiate_cost cfg b Hb)|]. split; [apply (challenge_cost cfg b Hb)|apply (authenticate_cost cfg b Hb)].
Qed.
(** Accepted or refused, a message is decoded in work linear in its length. *)
Lemma C100_linear_lem : forall cfg b, is_bytes b ->
  fst (negotiate_work cfg b) <= 2 * len b + 58
  /\ fst (challenge_work cfg b) <= 5 * len b + 90
  /\ fst (authenticate_work cfg b) <= 9 * len b + 248.
Proof.
  intros cfg b Hb. destruct (negotiate_cost cfg b Hb) as (_ & L1 & _). destruct (challenge_cost cfg b Hb) as (_ & L2 & _).
  destruct (authenticate_cost cfg b Hb) as (_ & L3 & _). unfold reach in *. lia.
Qed.
(** However long the input: only what fields of at most 65535 bytes refer to is looked at. *)
Lemma C100_bounded_lem : forall cfg b, is_bytes b ->
  fst (negotiate_work cfg b) <= 131128
  /\ fst (challenge_work cfg b) <= 327765
  /\ fst (authenticate_work cfg b) <= 590063.
Proof.
  intros cfg b Hb. destruct (negotiate_cost cfg b Hb) as (_ & L1 & _). destruct (challenge_cost cfg b Hb) as (_ & L2 & _).
  destruct (authenticate_cost cfg b Hb) as (_ & L3 & _). unfold reach in *. lia.
Qed.
Example C100_ex_lem :
  negotiate_work cfg_release [78; 84; 76; 77; 83; 83; 80; 0] = (10, negotiate_de cfg_release [78; 84; 76; 77; 83; 83; 80; 0])
  /\ len (busy_authenticate 10) = 168
  /\ fst (authenticate_work cfg_release (busy_authenticate 10)) = 640
  /\ len (calm_authenticate 10) = 168
  /\ fst (authenticate_work cfg_release (calm_authenticate 10)) = 271
  /\ (match authenticate_de cfg_release (busy_authenticate 10) with POk _ _ => true | _ => false end) = true.
Proof. conjs; vm_compute; reflexivity. Qed.
Lemma forallb_bytes l : forallb (fun x => x <? 256) l = true -> is_bytes l.
Proof. intros H. apply Forall_forall. intros x Hx. rewrite forallb_forall in H. specialize (H x Hx). unfold is_u8. lia. Qed.
(** A byte may be looked at more than once: fields may overlap, and a message
    whose three names are its NT response takes more than seven units for every byte. *)
Lemma C100_once_refuted_lem :
  ~ (forall cfg b, is_bytes b -> fst (authenticate_work cfg b) <= 7 * len b + 248).
Proof.
  intros H.
  assert (B : is_bytes (busy_authenticate 200)) by (apply forallb_bytes; vm_compute; reflexivity).
  specialize (H cfg_release _ B). revert H. vm_compute. intros H. now apply H.
Qed.
