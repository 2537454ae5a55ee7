(** The work of a call does not depend on secrets. *)
From Coq Require Import ZifyBool ZifyNat ZifyN.
From Verif Require Import Base Nom Unicode Wire Structures Prims Messages Crypto Client Spec SpecBuild SpecCrypto SpecClient SpecRemote Lib Encode Decode RoundTrip Parse Samples Cost FactsCost Effort FactsEncode FactsDecode FactsBuild DesKey RealPrims FactsCrypto SamplesClient History Reply FactsClient FactsEndian FactsEffort FactsRemote SamplesLabour Labour FactsLabour Creation SpecCreation FactsCreation SamplesLmv2 FactsLmv2 SamplesTiming.

Ltac Zify.zify_post_hook ::= Z.div_mod_to_equations.

(** ** Two computations with the same work *)
Definition alike {A : Type} (R : A -> A -> Prop) (x y : counted A) : Prop :=
  fst x = fst y /\ match snd x, snd y with Val a, Val b => R a b | Panic v, Panic w => v = w | _, _ => False end.
Lemma alike_bind {A B} (R : A -> A -> Prop) (S : B -> B -> Prop) x y f g :
  alike R x y -> (forall a b, R a b -> alike S (f a) (g b)) -> alike S (ebind x f) (ebind y g).
Proof.
  intros [E H] F. unfold ebind. destruct (snd x) as [a|v], (snd y) as [b|w]; try easy.
  destruct (F a b H) as [E' H']. split; [cbn; lia|exact H'].
Qed.
Lemma alike_tick {A} (R : A -> A -> Prop) n m x y : n = m -> alike R x y -> alike R (tick n x) (tick m y).
Proof. intros -> [E H]. split; [cbn; lia|exact H]. Qed.
Lemma alike_ret {A} (R : A -> A -> Prop) a b : R a b -> alike R (at_once (Val a)) (at_once (Val b)).
Proof. now split. Qed.
Lemma alike_same {A} (R : A -> A -> Prop) x : (forall a, R a a) -> alike R (at_once x) (at_once x).
Proof. intros H. split; [reflexivity|]. cbn. now destruct x. Qed.
Lemma alike_weaken {A} (R S : A -> A -> Prop) x y : alike R x y -> (forall a b, R a b -> S a b) -> alike S x y.
Proof. intros [E H] W. split; [exact E|]. destruct (snd x), (snd y); auto. Qed.

(** ** Encoders *)
Definition out_alike (x y : N * bytes) : Prop := fst x = fst y /\ len (snd x) = len (snd y).
Definition ealike (s t : eser) : Prop := forall w w', len w = len w' -> alike out_alike (s w) (t w').
Lemma ealike_raw b b' n : len b = len b' -> ealike (e_raw b n) (e_raw b' n).
Proof. intros E w w' L. split; [cbn; lia|]. split; [reflexivity|]. cbn. unfold write_all. rewrite !len_app. lia. Qed.
Lemma ealike_uint k n m : ealike (e_uint k n) (e_uint k m).
Proof. unfold e_uint. rewrite !len_le_enc. apply ealike_raw. now rewrite !len_le_enc. Qed.
Lemma ealike_seq a b a' b' : ealike a a' -> ealike b b' -> ealike (a *** b) (a' *** b').
Proof.
  intros H1 H2 w w' L. unfold e_seq. eapply alike_bind; [now apply H1|]. intros [n u] [n' u'] [E1 E2]. cbn in E1, E2. subst n'.
  eapply alike_bind; [now apply H2|]. intros [m v] [m' v'] [E3 E4]. cbn in E3, E4. subst m'. now apply alike_ret.
Qed.
Lemma ealike_vec {T} (s : T -> eser) l : (forall x, In x l -> ealike (s x) (s x)) -> ealike (e_vec s l) (e_vec s l).
Proof.
  induction l as [|x l IH]; intros H w w' L; cbn [e_vec]; [now apply alike_ret|].
  apply alike_tick; [reflexivity|]. eapply alike_bind; [apply H; [now left|exact L]|]. intros [n u] [n' u'] [E1 E2]. cbn in E1, E2. subst n'.
  eapply alike_bind; [apply IH; [intros y Hy; apply H; now right|exact E2]|]. intros [m v] [m' v'] [E3 E4]. cbn in E3, E4. subst m'. now apply alike_ret.
Qed.
Lemma ealike_unicode s : ealike (e_unicode s) (e_unicode s).
Proof. apply ealike_vec. intros. apply ealike_uint. Qed.
Lemma ealike_string cfg s : ealike (e_encode_string cfg s) (e_encode_string cfg s).
Proof.
  intros w w' L. unfold e_encode_string. apply alike_tick; [reflexivity|].
  eapply alike_bind with (R := eq); [apply alike_same; reflexivity|]. intros l ? <-.
  eapply alike_bind; [now apply ealike_uint|]. intros [n u] [n' u'] [E1 E2]. cbn in E1, E2. subst n'.
  eapply alike_bind; [apply ealike_raw; [reflexivity|exact E2]|]. intros [m v] [m' v'] [E3 E4]. cbn in E3, E4. subst m'. now apply alike_ret.
Qed.
Lemma ealike_av cfg a : ealike (e_av_pair cfg a) (e_av_pair cfg a).
Proof.
  unfold e_av_pair. apply ealike_seq; [apply ealike_uint|].
  destruct a; try apply ealike_string; try apply ealike_uint; try (apply ealike_seq; [apply ealike_uint|]).
  - apply ealike_uint.
  - apply ealike_seq; apply ealike_uint.
  - unfold e_single_host. apply ealike_seq; [apply ealike_uint|]. apply ealike_seq; [apply ealike_uint|]. apply ealike_seq; now apply ealike_raw.
  - now apply ealike_raw.
Qed.
Lemma ealike_buf n b b' : len b = len b' -> ealike (e_buf n b) (e_buf n b').
Proof. apply ealike_raw. Qed.
Lemma ealike_ntv2 cfg t t' cc cc' infos : len cc = len cc' ->
  ealike (e_ntv2 cfg (mkNtv2 t cc infos)) (e_ntv2 cfg (mkNtv2 t' cc' infos)).
Proof.
  intros E w w' L. unfold e_ntv2. eapply alike_bind.
  - cbn [nt_timestamp nt_client_challenge]. unfold e_filetime, e_buf.
    repeat first [apply ealike_seq | apply ealike_uint | apply ealike_raw; exact E | exact L].
  - intros [n u] [n' u'] [E1 E2]. cbn in E1, E2. subst n'. destruct (debug cfg && negb (n =? 28)); [now split|].
    eapply alike_bind; [apply ealike_vec; [intros; apply ealike_av|exact E2]|]. intros [m v] [m' v'] [E3 E4]. cbn in E3, E4. subst m'. now apply alike_ret.
Qed.
(** Options of the same kind *)
Definition oalike (s t : option eser) : Prop :=
  match s, t with Some s, Some t => ealike s t | None, None => True | _, _ => False end.
Definition out3_alike (x y : N * bytes * bytes) : Prop :=
  fst (fst x) = fst (fst y) /\ len (snd (fst x)) = len (snd (fst y)) /\ len (snd x) = len (snd y).
Lemma ealike_field f g : ealike (e_field f) (e_field g).
Proof. unfold e_field. repeat (apply ealike_seq; [apply ealike_uint|]). apply ealike_uint. Qed.
Lemma alike_field_then f g (d d' w w' : bytes) : len d = len d' -> len w = len w' ->
  alike out3_alike (effort! (n, writer') := e_field f w in at_once (Val (n, d, writer')))
                   (effort! (n, writer') := e_field g w' in at_once (Val (n, d', writer'))).
Proof.
  intros L1 L2. eapply alike_bind; [now apply ealike_field|]. intros [m v] [m' v'] [E3 E4]. cbn in E3, E4. subst m'. apply alike_ret.
  split; [reflexivity|]. now split.
Qed.
Definition fld_alike (x y : field * bytes) : Prop := len (snd x) = len (snd y).
Lemma alike_append s t d d' w w' : oalike s t -> len d = len d' -> len w = len w' ->
  alike out3_alike (e_append s d w) (e_append t d' w').
Proof.
  intros H L1 L2. unfold e_append. eapply alike_bind with (R := fld_alike).
  - destruct s as [s|], t as [t|]; try contradiction; [|now apply alike_ret]. rewrite L1.
    eapply alike_bind with (R := eq); [apply alike_same; reflexivity|]. intros o ? <-.
    eapply alike_bind; [now apply H|]. intros [n u] [n' u'] [E1 E2]. cbn in E1, E2. subst n'.
    eapply alike_bind with (R := eq); [apply alike_same; reflexivity|]. intros l ? <-. now apply alike_ret.
  - intros [f x] [g y] L. now apply alike_field_then.
Qed.
Lemma alike_append_many {T} (s : T -> eser) l d d' w w' : (forall x, ealike (s x) (s x)) -> len d = len d' -> len w = len w' ->
  alike out3_alike (e_append_many s l d w) (e_append_many s l d' w').
Proof.
  intros H L1 L2. unfold e_append_many. eapply alike_bind with (R := fld_alike).
  - destruct (is_nil l); [now apply alike_ret|]. rewrite L1.
    eapply alike_bind with (R := eq); [apply alike_same; reflexivity|]. intros o ? <-.
    eapply alike_bind; [apply ealike_vec; [intros; apply H|exact L1]|]. intros [n u] [n' u'] [E1 E2]. cbn in E1, E2. subst n'.
    eapply alike_bind with (R := eq); [apply alike_same; reflexivity|]. intros k ? <-. now apply alike_ret.
  - intros [f x] [g y] L. now apply alike_field_then.
Qed.
Lemma alike_finish off n p p' w w' : len p = len p' -> len w = len w' -> alike out_alike (e_finish off n p w) (e_finish off n p' w').
Proof.
  intros L1 L2. unfold e_finish. destruct (n =? off); [|now split]. unfold slice. rewrite L1.
  destruct ((len p' <? off) || (len p' <? len p')) eqn:E; [now split|].
  set (x := firstn _ (skipn _ p)). set (y := firstn _ (skipn _ p')).
  assert (L : len x = len y). { unfold x, y, len in *. rewrite !firstn_length, !skipn_length. lia. }
  eapply alike_bind with (R := fun a b => len a = len b); [now apply alike_ret|].
  intros a b Lab. rewrite Lab. now apply ealike_raw.
Qed.
Lemma alike_start off v v' : is_some v = is_some v' -> alike (fun a b => len a = len b) (e_start off v) (e_start off v').
Proof.
  intros H. unfold e_start. apply alike_tick; [reflexivity|]. destruct v as [v|], v' as [v'|]; try discriminate; [|now apply alike_ret].
  assert (V : ealike (e_version v) (e_version v')).
  { unfold e_version. repeat (apply ealike_seq; [apply ealike_uint|]). apply ealike_uint. }
  eapply alike_bind; [now apply V|]. intros [n u] [n' u'] [_ E]. now apply alike_ret.
Qed.
Lemma ealike_opt {T} (s : T -> eser) o : (forall x, ealike (s x) (s x)) -> oalike (e_opt s o) (e_opt s o).
Proof. intros H. destruct o; [apply H|exact I]. Qed.

(** ** Messages *)
Ltac next_pair := eapply alike_bind; [apply ealike_uint; assumption|]; let n := fresh "k" in let n' := fresh "k'" in let u := fresh "w" in
  let u' := fresh "w'" in let E := fresh "E" in let L := fresh "L" in intros [n u] [n' u'] [E L]; cbn [fst snd] in E, L; subst n'.
Ltac next_field tac := eapply alike_bind; [apply alike_append; [tac|assumption|assumption]|];
  let n := fresh "k" in let n' := fresh "k'" in let u := fresh "w" in let d := fresh "d" in let d' := fresh "d'" in
  let u' := fresh "w'" in let E := fresh "E" in let L := fresh "L" in let L' := fresh "L'" in
  intros [[n d] u] [[n' d'] u'] (E & L & L'); cbn [fst snd] in E, L, L'; subst n'.
Ltac next_raw := eapply alike_bind; [apply ealike_raw; [|eassumption]|]; [try reflexivity; try assumption|]; let n := fresh "k" in let n' := fresh "k'" in let u := fresh "w" in
  let u' := fresh "w'" in let E := fresh "E" in let L := fresh "L" in intros [n u] [n' u'] [E L]; cbn [fst snd] in E, L; subst n'.
Lemma ealike_negotiate n : ealike (negotiate_effort n) (negotiate_effort n).
Proof.
  intros w w' L0. unfold negotiate_effort. eapply alike_bind; [now apply alike_start|]. intros p p' Lp.
  next_raw. next_pair. next_pair. next_field ltac:(apply ealike_opt; intros; now apply ealike_raw).
  next_field ltac:(apply ealike_opt; intros; now apply ealike_raw). now apply alike_finish.
Qed.
Lemma ealike_challenge cfg c : ealike (challenge_effort cfg c) (challenge_effort cfg c).
Proof.
  intros w w' L0. unfold challenge_effort. eapply alike_bind; [now apply alike_start|]. intros p p' Lp.
  next_raw. next_pair. next_field ltac:(apply ealike_opt; intros; apply ealike_unicode).
  next_pair. next_raw. next_pair.
  eapply alike_bind; [apply alike_append_many; [intros; apply ealike_av|eassumption|eassumption]|].
  intros [[x1 y1] z1] [[x2 y2] z2] (H1 & H2 & H3). cbn [fst snd] in H1, H2, H3. subst x2. now apply alike_finish.
Qed.
(** Two AUTHENTICATE messages of the same shape *)
Definition shaped (cfg : config) (a b : authenticate) : Prop :=
  is_some (a_version a) = is_some (a_version b) /\ len (a_mic a) = len (a_mic b)
  /\ oalike (e_opt e_lm (a_lm a)) (e_opt e_lm (a_lm b)) /\ oalike (e_opt (e_nt cfg) (a_nt a)) (e_opt (e_nt cfg) (a_nt b))
  /\ a_domain a = a_domain b /\ a_user a = a_user b /\ a_workstation a = a_workstation b
  /\ oalike (e_opt (e_buf 16) (a_session_key a)) (e_opt (e_buf 16) (a_session_key b)).
Lemma ealike_authenticate cfg a b : shaped cfg a b -> ealike (authenticate_effort cfg a) (authenticate_effort cfg b).
Proof.
  intros (Hv & Hm & Hl & Hn & Hd & Hu & Hw & Hk) w w' L0. unfold authenticate_effort. rewrite Hd, Hu, Hw, Hm.
  eapply alike_bind; [apply alike_start; exact Hv|]. intros p p' Lp.
  eapply alike_bind; [apply ealike_raw; [exact Hm|exact Lp]|]. intros [m q] [m' q'] [_ Lq]. cbn [snd] in Lq.
  next_raw. next_pair. next_field ltac:(exact Hl). next_field ltac:(exact Hn).
  do 3 (next_field ltac:(apply ealike_opt; intros; apply ealike_unicode)).
  next_field ltac:(exact Hk). next_pair. now apply alike_finish.
Qed.

(** ** The calls *)
Definition both (n : nat) (a b : bytes) : Prop := length a = n /\ length b = n.
Lemma both_len n a b : both n a b -> len a = len b.
Proof. intros [H1 H2]. unfold len. now rewrite H1, H2. Qed.
Lemma alike_digest n k k' i i' d d' : len k = len k' -> len i = len i' -> both n d d' ->
  alike (both n) (digest k i d) (digest k' i' d').
Proof. intros H1 H2 H3. split; [cbn; rewrite H1, H2, (both_len _ _ _ H3); reflexivity|exact H3]. Qed.
Lemma des7_length P k d : prims_ok P -> length k = 7%nat -> length d = 8%nat -> exists x, des7_encrypt P k d = Val x /\ length x = 8%nat.
Proof.
  intros HP Hk Hd. destruct (des7_cases P k d Hd) as [(x & _ & E)|[N _]]; [|now destruct N].
  exists x. split; [exact E|]. revert E. unfold des7_encrypt. destruct (des_56bits_to_64bits k) as [k8|]; [|discriminate]. cbn [obind].
  unfold des_encrypt. destruct (length k8 =? 8)%nat eqn:E8; [|discriminate]. rewrite Hd. cbn. intros E. apply val_inj in E. subst x.
  apply ok_des_len; [exact HP|now apply Nat.eqb_eq|exact Hd].
Qed.
Lemma alike_des7 P k k' d d' : prims_ok P -> both 7 k k' -> both 8 d d' -> alike (both 8) (des7_labour P k d) (des7_labour P k' d').
Proof.
  intros HP [H1 H2] [H3 H4]. unfold des7_labour. apply alike_tick; [reflexivity|].
  destruct (des7_length P k d HP H1 H3) as (x & -> & Lx). destruct (des7_length P k' d' HP H2 H4) as (y & -> & Ly). now apply alike_ret.
Qed.
Lemma alike_desl P k k' d d' : prims_ok P -> both 16 k k' -> both 8 d d' -> alike (both 24) (desl_labour P k d) (desl_labour P k' d').
Proof.
  intros HP [H1 H2] [H3 H4]. unfold desl_labour. rewrite H1, H2, H3, H4. cbn [Nat.eqb andb].
  apply alike_tick; [unfold len; rewrite !app_length, H1, H2; reflexivity|].
  eapply alike_bind; [apply alike_des7; [exact HP| |now split]|].
  { split; rewrite firstn_length, app_length; rewrite ?H1, ?H2; reflexivity. }
  intros a a' [A1 A2].
  eapply alike_bind; [apply alike_des7; [exact HP| |now split]|].
  { split; rewrite firstn_length, skipn_length, app_length; rewrite ?H1, ?H2; reflexivity. }
  intros b b' [B1 B2].
  eapply alike_bind; [apply alike_des7; [exact HP| |now split]|].
  { split; rewrite skipn_length, app_length; rewrite ?H1, ?H2; reflexivity. }
  intros c c' [C1 C2]. apply alike_ret. split; rewrite !app_length; lia.
Qed.
Definition three (x y : bytes * bytes * bytes) : Prop :=
  both 24 (fst (fst x)) (fst (fst y)) /\ both 24 (snd (fst x)) (snd (fst y)) /\ both 16 (snd x) (snd y).
Lemma alike_ntlmv1 P f knt knt' klm klm' sc cc cc' b : prims_ok P -> both 16 knt knt' -> both 16 klm klm' -> length sc = 8%nat -> both 8 cc cc' ->
  alike three (ntlmv1_labour P f knt klm sc cc b) (ntlmv1_labour P f knt' klm' sc cc' b).
Proof.
  intros HP Hn Hl Hs Hc. unfold ntlmv1_labour.
  eapply alike_bind; [apply (alike_digest 16); [reflexivity|now apply both_len in Hn|split; apply ok_md4_len, HP]|].
  intros s s' Ss. destruct (has_flag f _).
  - eapply alike_bind with (R := both 16).
    { rewrite !len_app, (both_len _ _ _ Hc). apply alike_tick; [reflexivity|].
      apply alike_digest; [reflexivity|rewrite !len_app, (both_len _ _ _ Hc); reflexivity|split; apply ok_md5_len, HP]. }
    intros d d' [D1 D2]. eapply alike_bind; [apply alike_desl; [exact HP|exact Hn|split; rewrite firstn_length; lia]|].
    intros nt nt' Nt. apply alike_tick; [reflexivity|]. apply alike_ret. split; [|now split].
    destruct Hc as [C1 C2]. unfold lmv1_from_client_challenge. cbn [fst snd]. split; rewrite app_length, skipn_length; rewrite ?C1, ?C2; reflexivity.
  - eapply alike_bind; [apply alike_desl; [exact HP|exact Hn|now split]|]. intros nt nt' Nt.
    eapply alike_bind with (R := both 24).
    + destruct b; [apply alike_tick; [reflexivity|now apply alike_ret]|apply alike_desl; [exact HP|exact Hl|now split]].
    + intros lm lm' Lm. apply alike_ret. now split.
Qed.
Lemma alike_kxkey P f s s' l l' h h' sc : prims_ok P -> both 16 s s' -> both 8 l l' ->
  alike (both 16) (kxkey_labour P f s l h (Some sc)) (kxkey_labour P f s' l' h' (Some sc)).
Proof.
  intros HP Hs [L1 L2]. unfold kxkey_labour. rewrite L1, L2. cbn [Nat.eqb negb].
  apply alike_digest; [now apply both_len in Hs|rewrite !len_app; unfold len; now rewrite L1, L2|split; apply ok_hmac_len, HP].
Qed.
Lemma rc4_len P k d : prims_ok P -> length (rc4_apply P k d) = length d.
Proof.
  intros HP. unfold rc4_apply. generalize (ok_rc4_len P HP k (length d)). generalize (p_rc4_stream P k (length d)).
  induction d as [|x d IH]; intros [|y l] H; cbn in *; try lia. f_equal. apply IH. lia.
Qed.
Definition two (x y : bytes * bytes) : Prop := both 16 (fst x) (fst y) /\ both 16 (snd x) (snd y).
Lemma alike_session P f k k' r r' : prims_ok P -> both 16 k k' -> both 16 r r' ->
  alike two (session_labour P f k None r) (session_labour P f k' None r').
Proof.
  intros HP Hk Hr. unfold session_labour. apply alike_tick; [rewrite (both_len _ _ _ Hk), (both_len _ _ _ Hr); reflexivity|]. apply alike_ret.
  unfold encrypt_random_session_key. destruct (_ && _); (split; cbn [fst snd]; [assumption|]); [|now split].
  destruct Hr as [R1 R2]. split; rewrite rc4_len; assumption.
Qed.
Definition four cc cc' infos (x y : bytes * lm_challenge * ntv2_challenge * bytes) : Prop :=
  let '(_, lm, nt, k) := x in let '(_, lm', nt', k') := y in
  ealike (e_lm lm) (e_lm lm') /\ (exists t t', nt = mkNtv2 t cc infos /\ nt' = mkNtv2 t' cc' infos) /\ both 16 k k'.
(** A time can be had from both clocks or from neither. *)
Definition both_tell (time : option filetime) (clock clock' : systime) : Prop :=
  match time, filetime_try_from clock, filetime_try_from clock' with
  | Some _, _, _ | None, inl _, inl _ | None, inr _, inr _ => True
  | _, _, _ => False
  end.
Lemma both_tell_time ch r r' : (response_time ch r = None <-> response_time ch r' = None) ->
  both_tell (first_timestamp (ch_target_infos ch)) (e_clock r) (e_clock r').
Proof.
  unfold response_time, both_tell. rewrite first_timestamp_some. destruct (first_some _ _); [easy|].
  destruct (filetime_try_from (e_clock r)), (filetime_try_from (e_clock r')); intros [A B]; try easy; [now discriminate B|now discriminate A].
Qed.
Lemma alike_ntlmv2 cfg P k k' sc cc cc' time clock clock' infos : prims_ok P -> both 16 k k' -> both 8 cc cc' -> both_tell time clock clock' ->
  alike (four cc cc' infos) (ntlmv2_labour cfg P k k sc cc time clock infos) (ntlmv2_labour cfg P k' k' sc cc' time clock' infos).
Proof.
  intros HP Hk Hc Ht. pose proof (both_len _ _ _ Hk) as Lk. pose proof (both_len _ _ _ Hc) as Lc. unfold ntlmv2_labour. cbv zeta. rewrite Lc.
  eapply alike_bind with (R := fun _ _ => True).
  { apply alike_tick; [reflexivity|]. split; [reflexivity|]. unfold both_tell, ft_now in *. destruct time; [exact I|].
    cbn [snd at_once]. now destruct (filetime_try_from clock), (filetime_try_from clock'). }
  intros t t' _.
  eapply alike_bind; [apply alike_tick; [reflexivity|apply ealike_ntv2; [exact Lc|reflexivity]]|].
  intros [n u] [n' u'] [E1 E2]. cbn [fst snd] in E1, E2. subst n'. rewrite E2. destruct (debug cfg && _); [now split|].
  eapply alike_bind with (R := both 16).
  { apply alike_tick; [rewrite !len_app, E2; reflexivity|].
    apply alike_digest; [exact Lk|rewrite !len_app, E2; reflexivity|split; apply ok_hmac_len, HP]. }
  intros p p' Hp. pose proof (both_len _ _ _ Hp) as Lp.
  eapply alike_bind with (R := both 16).
  { apply alike_digest; [exact Lk|rewrite !len_app, Lc; reflexivity|split; apply ok_hmac_len, HP]. }
  intros q q' Hq. pose proof (both_len _ _ _ Hq) as Lq.
  eapply alike_bind with (R := both 16).
  { apply alike_tick; [reflexivity|]. apply alike_digest; [exact Lk|exact Lp|split; apply ok_hmac_len, HP]. }
  intros s s' Hs. apply alike_ret. split; [|split; [now exists t, t'|exact Hs]].
  cbn [e_lm]. apply ealike_seq; now apply ealike_buf.
Qed.
Lemma alike_mic cfg P a b n ch : prims_ok P -> shaped cfg a b -> is_some (a_exported_key a) = true -> is_some (a_exported_key b) = true ->
  alike (shaped cfg) (mic_effort cfg P a n ch) (mic_effort cfg P b n ch).
Proof.
  intros HP S Ka Kb. unfold mic_effort. destruct (a_exported_key a) as [k|]; [|discriminate]. destruct (a_exported_key b) as [k'|]; [|discriminate].
  assert (W : forall m m', len m = len m' -> shaped cfg (with_mic a m) (with_mic b m')).
  { intros m m' L. destruct a, b. destruct S as (S1 & _ & S3). split; [exact S1|]. split; [exact L|exact S3]. }
  eapply alike_bind; [apply ealike_negotiate; reflexivity|]. intros [x u] [x' u'] [_ U]. cbn [snd] in U.
  eapply alike_bind; [apply ealike_challenge; exact U|]. intros [y v] [y' v'] [_ V]. cbn [snd] in V.
  eapply alike_bind; [apply ealike_authenticate; [now apply W|exact V]|]. intros [z w] [z' w'] [_ X]. cbn [snd] in X.
  apply alike_tick; [exact X|]. apply alike_ret. apply W. apply (both_len 16). split; apply ok_hmac_len, HP.
Qed.
(** Clients that differ in their keys only *)
Record siblings (P : prims) (c d : client) : Prop := mkSiblings {
  si_prims : prims_ok P;
  si_lm : both 16 (cl_lm_hash c) (cl_lm_hash d);
  si_nt : both 16 (cl_nt_hash c) (cl_nt_hash d);
  si_v2 : both 16 (cl_ntlmv2_hash c) (cl_ntlmv2_hash d);
  si_level : cl_level c = cl_level d;
  si_user : cl_username c = cl_username d;
  si_domain : cl_domain c = cl_domain d;
  si_ws : cl_workstation c = cl_workstation d;
  si_version : cl_version c = None /\ cl_version d = None
}.
Lemma entropy_both r r' : is_entropy r -> is_entropy r' ->
  both 8 (e_client_challenge r) (e_client_challenge r') /\ both 16 (e_session_key r) (e_session_key r').
Proof. intros [[A _] [B _]] [[A' _] [B' _]]. now repeat split. Qed.
Lemma alike_v1 cfg P c d n ch r r' : siblings P c d -> ready (cl_state c) n ch -> ready (cl_state d) n ch ->
  valid_challenge ch -> is_entropy r -> is_entropy r' ->
  alike (shaped cfg) (send_authenticate_ntlmv1_labour P c r) (send_authenticate_ntlmv1_labour P d r').
Proof.
  intros [HP Hl Hn H2 El Eu Ed Ew Ev] Rc Rd (_ & _ & [Vs _] & _) Hr Hr'. destruct (entropy_both r r' Hr Hr') as [Bc Bk].
  unfold send_authenticate_ntlmv1_labour. destruct (ready_parts c n ch Rc) as [-> _]. destruct (ready_parts d n ch Rd) as [-> _].
  rewrite El, Eu, Ed.
  eapply alike_bind with (R := fun x y => x = ch /\ y = ch); [now apply alike_ret|]. intros ? ? [-> ->].
  eapply alike_bind; [apply alike_ntlmv1; assumption|]. intros [[lm nt] k] [[lm' nt'] k'] (T1 & T2 & T3). cbn [fst snd] in T1, T2, T3.
  eapply alike_bind; [apply alike_kxkey; [exact HP|exact T3|destruct T1; split; rewrite firstn_length; lia]|]. intros x x' Hx.
  eapply alike_bind; [apply alike_session; [exact HP|exact Hx|exact Bk]|]. intros [ex en] [ex' en'] [X1 X2]. cbn [fst snd] in X1, X2.
  apply alike_tick; [reflexivity|]. apply alike_ret.
  split; [reflexivity|]. split; [reflexivity|]. split; [apply ealike_buf; now apply both_len in T1|].
  split; [apply ealike_buf; now apply both_len in T2|]. do 3 (split; [reflexivity|]). apply ealike_buf. now apply both_len in X2.
Qed.
Lemma alike_v2 cfg P c d n ch r r' : siblings P c d -> ready (cl_state c) n ch -> ready (cl_state d) n ch ->
  is_entropy r -> is_entropy r' -> (response_time ch r = None <-> response_time ch r' = None) ->
  alike (shaped cfg) (send_authenticate_ntlmv2_labour cfg P c r) (send_authenticate_ntlmv2_labour cfg P d r').
Proof.
  intros [HP Hl Hn H2 El Eu Ed Ew Ev] Rc Rd Hr Hr' Ec. destruct (entropy_both r r' Hr Hr') as [Bc Bk].
  unfold send_authenticate_ntlmv2_labour. destruct (ready_parts c n ch Rc) as [-> ->]. destruct (ready_parts d n ch Rd) as [-> ->].
  rewrite Eu, Ed.
  eapply alike_bind with (R := fun x y => x = n /\ y = n); [now apply alike_ret|]. intros ? ? [-> ->].
  eapply alike_bind with (R := fun x y => x = ch /\ y = ch); [now apply alike_ret|]. intros ? ? [-> ->]. cbv zeta.
  eapply alike_bind; [apply alike_tick; [reflexivity|apply alike_ntlmv2; [assumption..|now apply both_tell_time]]|].
  intros [[[p lm] nt] k] [[[p' lm'] nt'] k'] (T1 & (t & t' & -> & ->) & T3).
  eapply alike_bind; [apply alike_tick; [now apply both_len in T3|apply alike_session; [exact HP|exact T3|exact Bk]]|].
  intros [ex en] [ex' en'] [X1 X2]. cbn [fst snd] in X1, X2.
  apply alike_tick; [reflexivity|]. apply alike_mic; [exact HP| |reflexivity|reflexivity].
  split; [reflexivity|]. split; [reflexivity|]. split; [exact T1|].
  split; [apply ealike_ntv2; now apply both_len in Bc|]. do 3 (split; [reflexivity|]). apply ealike_buf. now apply both_len in X2.
Qed.
Lemma finish_shaped cfg P c d a b : siblings P c d -> shaped cfg a b -> shaped cfg (finish_authenticate c a) (finish_authenticate d b).
Proof.
  intros [_ _ _ _ _ _ _ Ew [V1 V2]] S. unfold finish_authenticate. rewrite V1, V2, Ew. destruct a, b, S as (S1 & S2 & S3 & S4 & S5 & S6 & S7 & S8).
  cbn in *. destruct (cl_workstation d); repeat (split; [assumption || reflexivity|]); assumption.
Qed.
Lemma alike_send cfg P c d n ch r r' : siblings P c d -> ready (cl_state c) n ch -> ready (cl_state d) n ch ->
  valid_challenge ch -> is_entropy r -> is_entropy r' -> (response_time ch r = None <-> response_time ch r' = None) ->
  fst (send_authenticate_labour cfg P c r) = fst (send_authenticate_labour cfg P d r').
Proof.
  intros S Rc Rd V Hr Hr' Ec.
  assert (B : alike (shaped cfg) (build_authenticate_labour cfg P c r) (build_authenticate_labour cfg P d r')).
  { pose proof (alike_v1 cfg P c d n ch r r' S Rc Rd V Hr Hr') as A1. pose proof (alike_v2 cfg P c d n ch r r' S Rc Rd Hr Hr' Ec) as A2.
    unfold build_authenticate_labour. rewrite (si_level _ _ _ S).
    destruct (cl_level d) as [|[[[]|[]|]|[[]|[]|]|]]; try assumption; now split. }
  enough (X : alike (fun _ _ => True) (send_authenticate_labour cfg P c r) (send_authenticate_labour cfg P d r')) by apply X.
  unfold send_authenticate_labour. eapply alike_bind; [exact B|]. intros a b Sh.
  eapply alike_bind; [apply alike_tick; [now rewrite (si_ws _ _ _ S)|apply alike_ret; exact (finish_shaped cfg P c d a b S Sh)]|].
  intros a' b' Sh'. eapply alike_bind; [apply ealike_authenticate; [exact Sh'|reflexivity]|].
  intros [k u] [k' u'] _. now apply alike_ret.
Qed.
Lemma made_siblings cfg P e level user dom pw pw' target target' c c' s b s' b' :
  made cfg P e level user dom pw target c -> made cfg P e level user dom pw' target' c' -> siblings P (dress c s b) (dress c' s' b').
Proof.
  intros M M'. destruct (made_sound _ _ _ _ _ _ _ _ _ s b M) as [HP [Hl _] [Hn _] [H2 _] _ _ _ Hv].
  destruct (made_sound _ _ _ _ _ _ _ _ _ s' b' M') as [_ [Hl' _] [Hn' _] [H2' _] _ _ _ Hv'].
  pose proof (made_workstation_exists _ _ _ _ _ _ _ _ _ M) as W. pose proof (made_workstation_exists _ _ _ _ _ _ _ _ _ M') as W'.
  destruct (made_fields _ _ _ _ _ _ _ _ _ M) as (klm & ws & K & G & E). destruct (made_fields _ _ _ _ _ _ _ _ _ M') as (klm' & ws' & K' & G' & E').
  constructor; try exact HP; try (now split); subst c c'; cbn; try reflexivity; congruence.
Qed.

(** ** C115 *)
(** The work of an answer is the same whatever the password and the target are,
    whatever was drawn and whatever was called before, as long as both have a time to send
    or neither has. *)
Lemma C115_answer_lem : forall cfg P e level user dom pw pw' target target' c c' h h' r r' ch,
  made cfg P e level user dom pw target c -> made cfg P e level user dom pw' target' c' ->
  is_entropy r -> is_entropy r' -> (response_time ch r = None <-> response_time ch r' = None) ->
  accepts h ch -> accepts h' ch -> valid_challenge ch ->
  fst (send_authenticate_labour cfg P (run cfg P c h) r) = fst (send_authenticate_labour cfg P (run cfg P c' h') r').
Proof.
  intros cfg P e level user dom pw pw' target target' c c' h h' r r' ch M M' Hr Hr' Ec A A' V.
  assert (X : exists s b, run cfg P c h = dress c s b) by apply run_dress. destruct X as (s & b & X).
  assert (X' : exists s b, run cfg P c' h' = dress c' s b) by apply run_dress. destruct X' as (s' & b' & X').
  assert (R : forall pw target c h, made cfg P e level user dom pw target c -> accepts h ch ->
    (negotiable level dom -> ready (cl_state (run cfg P c h)) (neg_message level dom) ch)
    /\ (~ negotiable level dom -> fst (send_authenticate_labour cfg P (run cfg P c h) r) = 0 /\ fst (send_authenticate_labour cfg P (run cfg P c h) r') = 0)).
  { clear. intros pw target c h M A. pose proof (made_fresh _ _ _ _ _ _ _ _ _ M) as F. destruct (made_level _ _ _ _ _ _ _ _ _ M) as [L D]. split.
    - intros N. rewrite <- L, <- D in *. now apply (run_states cfg P c F h N).
    - intros N. rewrite <- L, <- D in *.
      assert (Z : forall n ch, ~ ready (cl_state (run cfg P c h)) n ch).
      { rewrite (run_states_not cfg P c F h N). intros n ch' [Z|[a Z]]; discriminate Z. }
      split; now apply labour_not_ready. }
  destruct (R _ _ _ _ M A) as [R1 R2]. destruct (R _ _ _ _ M' A') as [R1' R2'].
  destruct (negotiable_dec level dom) as [N|N].
  - specialize (R1 N). specialize (R1' N). rewrite X, X' in *.
    apply (alike_send cfg P _ _ (neg_message level dom) ch); try assumption. eapply made_siblings; eassumption.
  - destruct (R2 N) as [-> _]. destruct (R2' N) as [_ ->]. reflexivity.
Qed.
(** So is the work of an offer. *)
Lemma C115_offer_lem : forall cfg P e level user dom pw pw' target target' c c' h h',
  made cfg P e level user dom pw target c -> made cfg P e level user dom pw' target' c' ->
  fst (send_negociate_labour (run cfg P c h)) = fst (send_negociate_labour (run cfg P c' h')).
Proof.
  intros cfg P e level user dom pw pw' target target' c c' h h' M M'.
  assert (X : exists s b, run cfg P c h = dress c s b) by apply run_dress. destruct X as (s & b & ->).
  assert (X' : exists s b, run cfg P c' h' = dress c' s b) by apply run_dress. destruct X' as (s' & b' & ->).
  destruct (made_siblings _ _ _ _ _ _ _ _ _ _ _ _ s b s' b' M M') as [_ _ _ _ El _ Ed _ [V V']].
  enough (X : alike (fun _ _ => True) (send_negociate_labour (dress c s b)) (send_negociate_labour (dress c' s' b'))) by apply X.
  unfold send_negociate_labour. replace (negociate_message (dress c s b)) with (negociate_message (dress c' s' b'))
    by (unfold negociate_message; rewrite El, Ed, V, V'; reflexivity). rewrite Ed.
  eapply alike_bind with (R := eq); [apply alike_tick; [reflexivity|apply alike_same; reflexivity]|]. intros n ? <-.
  eapply alike_bind; [apply ealike_negotiate; reflexivity|]. intros [k u] [k' u'] [E L]. cbn [fst snd] in E, L. subst k'.
  unfold slice. rewrite L. destruct (_ || _); now split.
Qed.
Definition letters (n : nat) (a b : rstring) : Prop := is_ascii a /\ is_ascii b /\ both n a b.
Lemma letters_len n a b : letters n a b -> len (utf8 a) = len (utf8 b) /\ len (utf8 a) = N.of_nat n.
Proof. intros (A & B & [C D]). rewrite !utf8_ascii by assumption. unfold len. lia. Qed.
Lemma alike_upper P n a b : prims_ok P -> letters n a b -> alike (letters n) (upper_labour P a) (upper_labour P b).
Proof.
  intros HP H. assert (U : letters n (to_uppercase P a) (to_uppercase P b)).
  { destruct H as (A & B & [C D]). rewrite !to_uppercase_ascii by assumption.
    split; [now apply upper_ascii_ascii|]. split; [now apply upper_ascii_ascii|]. split; now rewrite map_length. }
  unfold upper_labour. apply alike_tick; [|now apply alike_ret].
  destruct (letters_len _ _ _ H) as [-> _]. destruct (letters_len _ _ _ U) as [-> _]. reflexivity.
Qed.
Lemma alike_prepare P n a b : prims_ok P -> letters n a b -> alike (letters 14) (prepare_labour P a) (prepare_labour P b).
Proof.
  intros HP H. unfold prepare_labour. destruct (letters_len _ _ _ H) as [<- L]. destruct (len (utf8 a) <? 14) eqn:E.
  - eapply alike_bind; [now apply (alike_upper P n)|]. intros x y Hx.
    assert (U : letters 14 (pad14 x) (pad14 y) /\ len x = len y).
    { destruct Hx as (X & Y & [C D]). unfold pad14. rewrite !utf8_ascii by assumption. split; [|unfold len; lia].
      split; [apply is_ascii_app; split; [assumption|apply is_ascii_zeros]|]. split; [apply is_ascii_app; split; [assumption|apply is_ascii_zeros]|].
      split; rewrite app_length, repeat_length; lia. }
    destruct U as [U ->]. apply alike_tick; [|now apply alike_ret]. destruct U as (_ & _ & U). now rewrite (both_len _ _ _ U).
  - destruct H as (A & B & [C D]). rewrite utf8_ascii in L, E by assumption.
    rewrite !split_at_byte_ascii by (assumption || (unfold len in *; lia)). apply alike_upper; [exact HP|].
    split; [now apply is_ascii_firstn|]. split; [now apply is_ascii_firstn|]. unfold len in *. split; rewrite firstn_length; lia.
Qed.
Lemma alike_lm P n a b : prims_ok P -> letters n a b -> alike (both 16) (lmowfv1_labour P a) (lmowfv1_labour P b).
Proof.
  intros HP H. unfold lmowfv1_labour. eapply alike_bind; [now apply (alike_prepare P n)|]. intros x y (X & Y & [C D]).
  rewrite !split_at_byte_ascii by (assumption || (unfold len; lia)).
  rewrite !utf8_ascii by (now apply is_ascii_firstn || now apply is_ascii_skipn).
  eapply alike_bind; [apply alike_des7; [exact HP|split; rewrite firstn_length; lia|now split]|]. intros u v [U V].
  eapply alike_bind; [apply alike_des7; [exact HP|split; rewrite skipn_length; lia|now split]|]. intros u' v' [U' V'].
  apply alike_ret. split; rewrite app_length; lia.
Qed.
Lemma ascii_units s : is_ascii s -> len (encode_utf16 s) = len s.
Proof.
  induction 1 as [|c s Hc Hs IH]; [reflexivity|]. unfold encode_utf16 in *. cbn [flat_map]. rewrite len_app, IH, len_cons.
  unfold utf16_char. replace (c <? 65536) with true by lia. reflexivity.
Qed.
Lemma alike_new cfg P e level user dom pw pw' target target' n : prims_ok P -> letters n pw pw' ->
  alike (fun _ _ => True) (new_with_domain_labour cfg P e level user dom pw target) (new_with_domain_labour cfg P e level user dom pw' target').
Proof.
  intros HP H. unfold new_with_domain_labour, compute_ntlm_hashes_labour.
  eapply alike_bind with (R := fun _ _ => True).
  - eapply alike_bind; [now apply (alike_lm P n)|]. intros l l' _.
    destruct H as (A & B & C). pose proof (both_len _ _ _ C) as L.
    eapply alike_bind with (R := both 16).
    { unfold ntowfv1_labour. rewrite !ascii_units, L by assumption. apply alike_tick; [reflexivity|].
      apply alike_digest; [reflexivity| |split; apply ok_md4_len, HP].
      rewrite !u16s_host, !utf16_host_len, !len_utf16le, !ascii_units, L by assumption. reflexivity. }
    intros h h' Hh. eapply alike_bind with (R := fun _ _ => True); [|intros; now apply alike_ret].
    unfold ntowfv2_labour. eapply alike_bind with (R := eq); [now split|]. intros u ? <-. apply alike_tick; [reflexivity|].
    eapply alike_weaken; [apply (alike_digest 16); [now apply both_len in Hh|reflexivity|split; apply ok_hmac_len, HP]|easy].
  - intros [[a b] c] [[a' b'] c'] _. eapply alike_bind with (R := eq).
    + split; [reflexivity|]. now destruct (snd _).
    + intros; now apply alike_ret.
Qed.
(** Creating a client takes the same work for all ASCII passwords of one length, *)
Lemma C115_creation_lem : forall cfg P e level account pw pw' target target', prims_ok P ->
  is_ascii pw -> is_ascii pw' -> length pw = length pw' ->
  fst (client_new_labour cfg P e level account pw target) = fst (client_new_labour cfg P e level account pw' target').
Proof.
  intros cfg P e level account pw pw' target target' HP A B L.
  assert (H : letters (length pw) pw pw') by now repeat split.
  enough (X : alike (fun _ _ => True) (client_new_labour cfg P e level account pw target) (client_new_labour cfg P e level account pw' target')) by apply X.
  unfold client_new_labour. apply alike_tick; [reflexivity|].
  destruct (split_once 92 account) as [[d u]|]; [apply alike_tick; [reflexivity|now apply (alike_new cfg P e level u d _ _ _ _ (length pw))]|].
  apply alike_tick; [reflexivity|].
  destruct (split_once 64 account) as [[u d]|]; (apply alike_tick; [reflexivity|]); now apply (alike_new _ _ _ _ _ _ _ _ _ _ (length pw)).
Qed.
(** but the length of a password shows. *)
Lemma C115_creation_refuted_lem : ~ (forall cfg P e level account pw pw' target, prims_ok P -> is_ascii pw -> is_ascii pw' ->
  fst (client_new_labour cfg P e level account pw target) = fst (client_new_labour cfg P e level account pw' target)).
Proof.
  intros H. specialize (H cfg_debug xor_prims host_env 3 str_User str_Password str_Secret str_target xor_ok).
  assert (A : is_ascii str_Password /\ is_ascii str_Secret) by (split; repeat constructor). destruct A as [A B].
  specialize (H A B). revert H. vm_compute. discriminate.
Qed.
Lemma head_ok : prims_ok head_prims.
Proof.
  destruct xor_ok. constructor; try assumption; intros m; cbn [head_prims p_md4]; unfold head_md4.
  - rewrite firstn_length, app_length. cbn [length zeros repeat]. lia.
  - apply Forall_firstn, Forall_app. split; [|apply zeros_buffer]. apply Forall_forall. intros x Hx. apply in_map_iff in Hx as (y & <- & _).
    unfold is_u8. apply N.mod_lt. discriminate.
Qed.
Example C115_ex_lem : let h := sample_history sealed_challenge in let h' := [OpNegociate; OpRecvChallenge sealed_challenge] in
  let c := head_client 3 str_Password str_target in let c' := head_client 3 str_Secret [] in
  made cfg_debug head_prims host_env 3 str_User str_Domain str_Password str_target c
  /\ made cfg_debug head_prims host_env 3 str_User str_Domain str_Secret [] c'
  /\ is_entropy sample_entropy /\ is_entropy other_entropy /\ (response_time sealed_challenge sample_entropy = None <-> response_time sealed_challenge other_entropy = None)
  /\ accepts h sealed_challenge /\ accepts h' sealed_challenge /\ valid_challenge sealed_challenge
  /\ answer cfg_debug head_prims c h (OpAuthenticate sample_entropy) <> answer cfg_debug head_prims c' h' (OpAuthenticate sample_entropy)
  /\ fst (send_authenticate_labour cfg_debug head_prims (run cfg_debug head_prims c h) sample_entropy) = 3546
  /\ fst (send_authenticate_labour cfg_debug head_prims (run cfg_debug head_prims c' h') other_entropy) = 3546
  /\ is_ascii str_Password /\ is_ascii str_Passw0rd /\ length str_Password = length str_Passw0rd
  /\ fst (client_new_labour cfg_debug head_prims host_env 3 str_User str_Passw0rd []) = 196.
Proof.
  intros h h' c c'.
  assert (Z : forall pw t, is_string pw -> new_with_domain cfg_debug head_prims host_env 3 str_User str_Domain pw t = Val (head_client 3 pw t) ->
    made cfg_debug head_prims host_env 3 str_User str_Domain pw t (head_client 3 pw t)).
  { intros pw t Hp E. split; [exact head_ok|]. split; [closed_valid|]. split; [closed_valid|]. split; [closed_valid|]. now split. }
  split; [apply Z; [closed_valid|vm_compute; reflexivity]|]. split; [apply Z; [closed_valid|vm_compute; reflexivity]|].
  split; [exact sample_entropy_ok|]. split; [closed_valid|].
  split; [split; intros N; exfalso; revert N; vm_compute; discriminate|]. split; [apply sample_accepts|].
  split; [exists [], [], []; now repeat constructor|]. split; [exact sealed_valid|].
  split; [vm_compute; discriminate|]. split; [vm_compute; reflexivity|]. split; [vm_compute; reflexivity|].
  split; [repeat constructor|]. split; [repeat constructor|]. split; [reflexivity|]. vm_compute. reflexivity.
Qed.
