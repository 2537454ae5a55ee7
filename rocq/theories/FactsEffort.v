(** Work of the encoders. *)
From Coq Require Import ZifyBool ZifyNat ZifyN.
From Verif Require Import Base Nom Unicode Wire Structures Prims Messages Spec Lib Encode Decode RoundTrip Parse Samples Writer SpecWriter WriterLib FactsEncode FactsWriter Effort SpecEffort.

Ltac Zify.zify_post_hook ::= Z.div_mod_to_equations.

(** ** Counting *)
Definition does {A : Type} (x : counted A) (y : outcome A) (k : N) (Q : A -> Prop) : Prop :=
  snd x = y /\ fst x <= k /\ forall a, y = Val a -> Q a.
Definition whatever {A : Type} (_ : A) : Prop := True.
Lemma does_bind {A B} (x : counted A) y (f : A -> counted B) g k1 k2 Q R :
  does x y k1 Q -> (forall a, Q a -> does (f a) (g a) k2 R) -> does (ebind x f) (obind y g) (k1 + k2) R.
Proof.
  intros (E & L & H) Hf. unfold ebind. rewrite E. destruct y as [a|w]; cbn [obind].
  - destruct (Hf a (H a eq_refl)) as (E' & L' & H'). split; [exact E'|]. split; [cbn; lia|exact H'].
  - split; [reflexivity|]. split; [cbn; lia|discriminate].
Qed.
Lemma does_once {A} (y : outcome A) (Q : A -> Prop) : (forall a, y = Val a -> Q a) -> does (at_once y) y 0 Q.
Proof. intros H. split; [reflexivity|]. split; [cbn; lia|exact H]. Qed.
Lemma does_ret {A} (a : A) (Q : A -> Prop) : Q a -> does (at_once (Val a)) (Val a) 0 Q.
Proof. intros H. apply does_once. intros x E. now injection E as <-. Qed.
Lemma does_tick {A} n (x : counted A) y k Q : does x y k Q -> does (tick n x) y (n + k) Q.
Proof. intros (E & L & H). split; [exact E|]. split; [cbn; lia|exact H]. Qed.
Lemma does_weaken {A} (x : counted A) y k k' (Q R : A -> Prop) :
  does x y k Q -> k <= k' -> (forall a, Q a -> R a) -> does x y k' R.
Proof. intros (E & L & H) Hk HQ. split; [exact E|]. split; [lia|auto]. Qed.
Lemma does_more {A} (x : counted A) y k k' (Q : A -> Prop) : does x y k Q -> k <= k' -> does x y k' Q.
Proof. intros H L. eapply does_weaken; eauto. Qed.

(** ** Pieces *)
Definition costs (s : eser) (t : ser) (k : N) : Prop := forall w, does (s w) (t w) k whatever.
Lemma costs_more s t k k' : costs s t k -> k <= k' -> costs s t k'.
Proof. intros H L w. eapply does_more; eauto. Qed.
Lemma costs_raw b n : costs (e_raw b n) (raww b n) (1 + len b).
Proof. intros w. split; [reflexivity|]. split; [apply N.le_refl|constructor]. Qed.
Lemma len_le_enc k n : len (le_enc k n) = N.of_nat k.
Proof. revert n. induction k as [|k IH]; intros n; cbn [le_enc]; [reflexivity|]. rewrite len_cons, IH. lia. Qed.
Lemma costs_uint k n : costs (e_uint k n) (write_uint k n) (1 + N.of_nat k).
Proof. intros w. split; [reflexivity|]. split; [cbn [fst e_uint e_raw]; unfold e_uint, e_raw; cbn [fst]; rewrite len_le_enc; lia|constructor]. Qed.
Lemma costs_seq s t a b k l : costs s a k -> costs t b l -> costs (s *** t) (a +++ b) (k + l).
Proof.
  intros H1 H2 w. unfold e_seq, seqw. eapply does_bind; [apply H1|]. intros [n w1] _.
  replace l with (l + 0) by lia. eapply does_bind; [apply H2|]. intros [m w2] _. apply does_ret. exact I.
Qed.
Lemma costs_vec {T} (s : T -> eser) t (f : T -> N) l :
  (forall x, In x l -> costs (s x) (t x) (f x)) ->
  costs (e_vec s l) (ser_vec t l) (fold_right (fun x n => 1 + f x + n) 0 l).
Proof.
  induction l as [|x l IH]; intros H w; cbn [e_vec ser_vec fold_right].
  - apply does_ret. exact I.
  - rewrite <- N.add_assoc. apply does_tick. eapply does_bind; [apply H; now left|]. intros [n w1] _.
    replace (fold_right _ _ _) with (fold_right (fun x n => 1 + f x + n) 0 l + 0) by lia.
    eapply does_bind; [apply IH; intros y Hy; apply H; now right|]. intros [m w2] _. apply does_ret. exact I.
Qed.
Lemma len_utf16le s : len (utf16le s) = 2 * len (encode_utf16 s).
Proof.
  rewrite <- encode_utf16_le. induction (encode_utf16 s) as [|u l IH]; [reflexivity|].
  cbn [flat_map]. rewrite len_app, len_cons, IH. unfold len at 1. rewrite le16_length. lia.
Qed.
Lemma costs_unicode s : costs (e_unicode s) (unicode_ser s) (2 * len (utf16le s)).
Proof.
  unfold e_unicode, unicode_ser. eapply costs_more; [apply (costs_vec _ _ (fun _ => 3)); intros x _; apply costs_uint|].
  rewrite len_utf16le. clear. induction (encode_utf16 s) as [|u l IH]; [cbn; lia|]. cbn [fold_right]. rewrite len_cons. lia.
Qed.
Lemma costs_oem s : costs (e_oem s) (oem_ser s) (1 + len (utf8 s)).
Proof. apply costs_raw. Qed.
Lemma costs_flags f : costs (e_flags f) (flags_ser f) 5.
Proof. apply (costs_uint 4). Qed.
Lemma costs_field f : costs (e_field f) (field_ser f) 11.
Proof.
  unfold e_field, field_ser. change 11 with (3 + (3 + 5)). repeat apply costs_seq; apply costs_uint.
Qed.
Lemma costs_version v : costs (e_version v) (version_ser v) 14.
Proof.
  unfold e_version, version_ser. change 14 with (2 + (2 + (3 + (2 + (3 + 2))))). repeat apply costs_seq; apply costs_uint.
Qed.
Lemma costs_filetime t : costs (e_filetime t) (filetime_ser t) 10.
Proof. unfold e_filetime, filetime_ser. change 10 with (5 + 5). apply costs_seq; apply costs_uint. Qed.
Lemma costs_buf n b : length b = n -> costs (e_buf n b) (buf_ser n b) (1 + N.of_nat n).
Proof. intros <-. apply costs_raw. Qed.

Lemma costs_string cfg s : costs (e_encode_string cfg s) (encode_string cfg s) (4 + 2 * len (utf16_host cfg s)).
Proof.
  intros w. unfold e_encode_string, encode_string. rewrite <- u16s_host.
  assert (L : len (u16s_as_bytes cfg (encode_utf16 s)) = 2 * len (encode_utf16 s)).
  { rewrite u16s_host, utf16_host_len. apply len_utf16le. }
  set (data := u16s_as_bytes cfg (encode_utf16 s)) in *.
  apply does_more with (k := len (encode_utf16 s) + (0 + (3 + (1 + len data + 0)))); [|lia].
  apply does_tick. eapply does_bind; [apply does_once; intros; exact I|]. intros l _.
  eapply does_bind; [apply (costs_uint 2)|]. intros [n w1] _.
  change (Val (n + len data, write_all data w1)) with (obind (raww data (len data) w1) (fun '(m, w2) => Val (n + m, w2))).
  eapply does_bind; [apply costs_raw|]. intros [m w2] _. apply does_ret. exact I.
Qed.
(** Two units for every byte of an attribute-value pair, including the turn of the loop. *)
Lemma costs_av cfg a : valid_av_pair a -> costs (e_av_pair cfg a) (av_pair_ser cfg a) (2 * len (av_bytes cfg a) - 1).
Proof.
  intros V. pose proof (av_value_fixed_len cfg a V) as F. rewrite av_bytes_len.
  unfold e_av_pair, av_pair_ser.
  destruct a; cbn [av_value valid_av_pair] in *.
  all: try (eapply costs_more; [apply costs_seq; [apply (costs_uint 2)|apply costs_string]|lia]).
  - rewrite F. eapply costs_more; [apply costs_seq; apply (costs_uint 2)|lia].
  - rewrite F. eapply costs_more; [apply costs_seq; [apply (costs_uint 2)|apply costs_seq; [apply (costs_uint 2)|apply (costs_uint 4)]]|lia].
  - rewrite F. eapply costs_more; [apply costs_seq; [apply (costs_uint 2)|apply costs_seq; [apply (costs_uint 2)|apply costs_filetime]]|lia].
  - rewrite F. destruct V as (_ & _ & [H1 _] & [H2 _]).
    eapply costs_more.
    + apply costs_seq; [apply (costs_uint 2)|]. apply costs_seq; [apply (costs_uint 2)|].
      unfold e_single_host, single_host_ser.
      repeat apply costs_seq; [apply (costs_uint 4)|apply (costs_uint 4)|apply costs_raw|apply costs_raw].
    + unfold len. rewrite H1, H2. lia.
  - rewrite F. destruct V as [H _].
    eapply costs_more; [apply costs_seq; [apply (costs_uint 2)|apply costs_seq; [apply (costs_uint 2)|apply costs_raw]]|].
    unfold len. rewrite H. lia.
Qed.
Lemma costs_av_list cfg l : Forall valid_av_pair l ->
  costs (e_vec (e_av_pair cfg) l) (ser_vec (av_pair_ser cfg) l) (2 * len (av_list_bytes cfg l)).
Proof.
  intros V. eapply costs_more.
  - apply costs_vec. intros x Hx. apply costs_av. rewrite Forall_forall in V. now apply V.
  - clear V. induction l as [|a l IH]; [cbn; lia|]. unfold av_list_bytes in *. cbn [fold_right flat_map].
    rewrite len_app. pose proof (av_bytes_len cfg a). lia.
Qed.
Lemma costs_lm c : valid_lm c -> costs (e_lm c) (lm_challenge_ser c) (2 * len (lm_bytes c)).
Proof.
  destruct c as [r|r cc]; cbn [valid_lm e_lm lm_challenge_ser lm_bytes].
  - intros [H _]. eapply costs_more; [now apply costs_buf|]. unfold len. rewrite H. lia.
  - intros [[H1 _] [H2 _]]. eapply costs_more; [apply costs_seq; now apply costs_buf|].
    rewrite len_app. unfold len. rewrite H1, H2. lia.
Qed.
Lemma costs_nt cfg c : valid_nt c -> costs (e_nt cfg c) (nt_challenge_ser cfg c) (2 * len (nt_bytes cfg c)).
Proof.
  destruct c as [r|[t cc l]]; cbn [valid_nt e_nt nt_challenge_ser nt_bytes nt_timestamp nt_client_challenge nt_target_infos].
  - intros [H _]. eapply costs_more; [now apply costs_buf|]. unfold len. rewrite H. lia.
  - intros (_ & [H _] & V) w. unfold e_ntv2, ntv2_ser. cbn [nt_timestamp nt_client_challenge nt_target_infos].
    apply does_more with (k := 36 + 2 * len (av_list_bytes cfg l)).
    + eapply does_bind.
      * change 36 with (2 + (2 + (3 + (5 + (10 + (9 + 5)))))).
        repeat apply costs_seq; first [apply costs_filetime | apply costs_buf; exact H | apply costs_uint].
      * intros [size w1] _. destruct (debug cfg && negb (size =? 28)).
        -- apply does_more with (k := 0); [apply does_once; discriminate|lia].
        -- replace (2 * _) with (2 * len (av_list_bytes cfg l) + 0) by lia.
           eapply does_bind; [now apply costs_av_list|]. intros [n w2] _. apply does_ret. exact I.
    + unfold ntv2_bytes. cbn [nt_timestamp nt_client_challenge nt_target_infos]. rewrite !len_app.
      change (len [1; 1; 0; 0; 0; 0; 0; 0]) with 8. change (len [0; 0; 0; 0]) with 4.
      replace (len cc) with 8 by (unfold len; now rewrite H). change (len (filetime_bytes t)) with 8. lia.
Qed.

(** ** Fields *)
Definition holds_at_most (n : N) (x : N * bytes * bytes) : Prop := len (snd (fst x)) <= n.
(** The work of writing the field [f], and what the payload is afterwards. *)
Lemma does_append value t f data w :
  value_for t f ->
  match value, t with
  | Some s, Some t => costs s t (1 + 2 * len (content f))
  | None, None => True
  | _, _ => False
  end ->
  does (e_append value data w) (append t data w) (12 + 2 * len (content f)) (holds_at_most (len data + len (content f))).
Proof.
  intros F C.
  assert (Q : forall a, append t data w = Val a -> holds_at_most (len data + len (content f)) a).
  { intros a E. destruct (N.lt_ge_cases (len data) 4294967296) as [L|L].
    - rewrite (append_value t f) in E by assumption. destruct (len (content f) <=? 65535); [|discriminate].
      injection E as <-. unfold holds_at_most. cbn [fst snd]. rewrite len_app. lia.
    - destruct t as [t|].
      + unfold append, to_u32 in E. destruct (len data <? 4294967296) eqn:E'; [lia|discriminate].
      + rewrite append_none in E. injection E as <-. unfold holds_at_most. cbn [fst snd]. lia. }
  assert (D : does (e_append value data w) (append t data w) (12 + 2 * len (content f)) whatever).
  { unfold e_append, append.
    apply does_more with (k := (1 + 2 * len (content f)) + (11 + 0)); [|lia].
    eapply does_bind with (Q := whatever).
    - destruct value as [s|], t as [t|]; try contradiction.
      + replace (1 + 2 * len (content f)) with (0 + (1 + 2 * len (content f) + (0 + 0))) by lia.
        eapply does_bind; [apply does_once; intros; exact I|]. intros off _.
        eapply does_bind; [apply C|]. intros [n d] _.
        eapply does_bind; [apply does_once; intros; exact I|]. intros l _. apply does_ret. exact I.
      + eapply does_more; [apply does_ret; exact I|lia].
    - intros [fld d] _. eapply does_bind; [apply costs_field|]. intros [n w'] _. apply does_ret. exact I. }
  destruct D as (D1 & D2 & _). split; [exact D1|]. split; [exact D2|exact Q].
Qed.
Lemma does_append_opt {T} (s : T -> eser) (t : T -> ser) (e : T -> bytes) o data w :
  value_for (opt_ser t o) (opt_map e o) ->
  (forall x, o = Some x -> costs (s x) (t x) (1 + 2 * len (e x))) ->
  does (e_append (e_opt s o) data w) (append (opt_ser t o) data w) (12 + 2 * len (content (opt_map e o)))
    (holds_at_most (len data + len (content (opt_map e o)))).
Proof.
  intros F C. apply does_append; [exact F|]. destruct o as [x|]; cbn [e_opt opt_ser opt_map content]; [|exact I].
  now apply C.
Qed.
Lemma does_append_many cfg l data w : Forall valid_av_pair l ->
  does (e_append_many (e_av_pair cfg) l data w) (append_many (av_pair_ser cfg) l data w)
    (12 + 2 * len (content (av_list_field cfg l))) (holds_at_most (len data + len (content (av_list_field cfg l)))).
Proof.
  intros V.
  assert (Q : forall a, append_many (av_pair_ser cfg) l data w = Val a ->
    holds_at_most (len data + len (content (av_list_field cfg l))) a).
  { intros a E. destruct (N.lt_ge_cases (len data) 4294967296) as [L|L].
    - rewrite append_many_value in E by assumption. destruct (len (content _) <=? 65535); [|discriminate].
      injection E as <-. unfold holds_at_most. cbn [fst snd]. rewrite len_app. lia.
    - destruct l as [|x l].
      + cbn [append_many is_nil obind] in E. rewrite writes_field in E. cbn [obind] in E.
        injection E as <-. unfold holds_at_most. cbn [fst snd]. lia.
      + unfold append_many, to_u32 in E. cbn [is_nil] in E. destruct (len data <? 4294967296) eqn:E'; [lia|discriminate]. }
  assert (D : does (e_append_many (e_av_pair cfg) l data w) (append_many (av_pair_ser cfg) l data w)
    (12 + 2 * len (content (av_list_field cfg l))) whatever).
  { unfold e_append_many, append_many.
    apply does_more with (k := (1 + 2 * len (content (av_list_field cfg l))) + (11 + 0)); [|lia].
    eapply does_bind with (Q := whatever).
    - destruct l as [|x l]; cbn [is_nil].
      + eapply does_more; [apply does_ret; exact I|lia].
      + cbn [av_list_field content].
        apply does_more with (k := 0 + (2 * len (av_list_bytes cfg (x :: l)) + (0 + 0))); [|lia].
        eapply does_bind; [apply does_once; intros; exact I|]. intros off _.
        eapply does_bind; [now apply costs_av_list|]. intros [n d] _.
        eapply does_bind; [apply does_once; intros; exact I|]. intros k _. apply does_ret. exact I.
    - intros [fld d] _. eapply does_bind; [apply costs_field|]. intros [n w'] _. apply does_ret. exact I. }
  destruct D as (D1 & D2 & _). split; [exact D1|]. split; [exact D2|exact Q].
Qed.
Lemma does_start off v : does (e_start off v) (start_payload off v) (N.of_nat off + (if is_some v then 14 else 0))
  (fun p => len p = N.of_nat off + len (opt_version_bytes v)).
Proof.
  assert (D : does (e_start off v) (start_payload off v) (N.of_nat off + (if is_some v then 14 else 0)) whatever).
  { unfold e_start, start_payload. apply does_tick. destruct v as [v|]; cbn [is_some].
    - change 14 with (14 + 0). eapply does_bind; [apply costs_version|]. intros [n p] _. apply does_ret. exact I.
    - apply does_ret. exact I. }
  destruct D as (D1 & D2 & _). split; [exact D1|]. split; [exact D2|].
  intros p. rewrite start_payload_spec. intros E. injection E as <-. now rewrite len_app, len_zeros.
Qed.
Lemma does_finish off written payload w n : len payload <= off + n ->
  does (e_finish off written payload w) (finish off written payload w) (1 + n) whatever.
Proof.
  intros L. unfold e_finish, finish. destruct (written =? off).
  - replace (1 + n) with (0 + (1 + n)) by lia.
    eapply does_bind with (Q := fun p => len p <= n).
    + apply does_once. intros p E. unfold slice in E.
      destruct ((len payload <? off) || (len payload <? len payload)) eqn:B; [discriminate|].
      injection E as <-. unfold len in *. rewrite firstn_length, skipn_length. lia.
    + intros p H. split; [reflexivity|]. split; [cbn [fst e_raw]; lia|]. intros; exact I.
  - eapply does_more; [apply does_once; discriminate|lia].
Qed.

(** ** Messages *)
Lemma does_raw_then {A} b n w (f : N * bytes -> counted A) y k R :
  does (f (n, write_all b w)) y k R -> does (ebind (e_raw b n w) f) y (1 + len b + k) R.
Proof. intros (E & L & H). unfold ebind, e_raw. cbn [fst snd]. split; [exact E|]. split; [cbn [fst]; lia|exact H]. Qed.
Lemma names_for {T} (s : T -> ser) (e : T -> bytes) o : (forall x, writes (s x) (e x)) -> value_for (opt_ser s o) (opt_map e o).
Proof. intros H. apply value_for_writes. intros x _. apply H. Qed.
Lemma costs_names o x : o = Some x -> costs (e_unicode x) (unicode_ser x) (1 + 2 * len (utf16le x)).
Proof. intros _. eapply costs_more; [apply costs_unicode|lia]. Qed.
Lemma len_concat_descriptors off fs : len (concat (descriptors off fs)) = 8 * N.of_nat (length fs).
Proof.
  revert off. induction fs as [|f fs IH]; intros off; [reflexivity|]. cbn [descriptors concat length].
  rewrite len_app, IH. unfold len at 1. rewrite descriptor_length. lia.
Qed.
Lemma costs_negotiate n : valid_negotiate n -> costs (negotiate_effort n) (negotiate_ser n) (3 * len (negotiate_bytes n)).
Proof.
  intros (_ & _ & _ & _) w. unfold negotiate_effort, negotiate_ser.
  set (d := len (content (opt_map utf8 (n_domain n)))). set (k := len (content (opt_map utf8 (n_workstation n)))).
  set (v := len (opt_version_bytes (n_version n))).
  apply does_more with
    (k := (32 + (if is_some (n_version n) then 14 else 0)) + ((1 + len SIGNATURE) + (5 + (5 + ((12 + 2 * d) + ((12 + 2 * k) + (1 + (v + d + k)))))))).
  - eapply does_bind; [apply does_start|]. intros p Hp. apply does_raw_then.
    eapply does_bind; [apply (costs_uint 4)|]. intros [k1 w1] _.
    eapply does_bind; [apply costs_flags|]. intros [k2 w2] _.
    eapply does_bind; [apply does_append_opt; [apply names_for, writes_oem|]; intros x _; eapply costs_more; [apply costs_oem|lia]|].
    intros [[k3 p3] w3] H3.
    eapply does_bind; [apply does_append_opt; [apply names_for, writes_oem|]; intros x _; eapply costs_more; [apply costs_oem|lia]|].
    intros [[k4 p4] w4] H4. unfold holds_at_most in *. cbn [fst snd] in *. fold d in H3. fold k in H4. fold v in Hp.
    apply does_finish. lia.
  - unfold negotiate_bytes. rewrite !len_app, len_concat_descriptors. unfold contents, negotiate_fields. cbn [flat_map length].
    rewrite !len_app. fold d k v. change (len (@nil N)) with 0. change (len NTLMSSP) with 8. change (len SIGNATURE) with 8.
    change (len (le32 1)) with 4. change (len (le32 (n_flags n))) with 4.
    unfold v. rewrite opt_version_bytes_len. destruct (is_some (n_version n)); lia.
Qed.
Lemma costs_challenge cfg c : valid_challenge c -> costs (challenge_effort cfg c) (challenge_ser cfg c) (3 * len (challenge_bytes cfg c)).
Proof.
  intros (_ & _ & [Hs _] & Hv & _) w. unfold challenge_effort, challenge_ser.
  set (d := len (content (opt_map utf16le (ch_target_name c)))). set (k := len (content (av_list_field cfg (ch_target_infos c)))).
  set (v := len (opt_version_bytes (ch_version c))).
  apply does_more with
    (k := (48 + (if is_some (ch_version c) then 14 else 0)) + ((1 + len SIGNATURE) + (5 + ((12 + 2 * d) + (5 + (9 + (9 + ((12 + 2 * k) + (1 + (v + d + k)))))))))).
  - eapply does_bind; [apply does_start|]. intros p Hp. apply does_raw_then.
    eapply does_bind; [apply (costs_uint 4)|]. intros [k1 w1] _.
    eapply does_bind; [apply does_append_opt; [apply names_for, writes_unicode|exact (costs_names _)]|].
    intros [[k3 p3] w3] H3.
    eapply does_bind; [apply costs_flags|]. intros [k4 w4] _.
    eapply does_bind; [apply (costs_buf 8); exact Hs|]. intros [k5 w5] _.
    eapply does_bind; [apply (costs_uint 8)|]. intros [k6 w6] _.
    eapply does_bind; [apply does_append_many; exact Hv|].
    intros [[k7 p7] w7] H7. unfold holds_at_most in *. cbn [fst snd] in *. fold d in H3. fold k in H7. fold v in Hp.
    apply does_finish. lia.
  - unfold challenge_bytes. cbn [challenge_fields descriptors nth]. rewrite !len_app. unfold contents, challenge_fields. cbn [flat_map].
    rewrite !len_app. fold d k v. change (len (@nil N)) with 0. change (len NTLMSSP) with 8. change (len SIGNATURE) with 8.
    change (len (le32 2)) with 4. change (len (le32 (ch_flags c))) with 4. change (len [0; 0; 0; 0; 0; 0; 0; 0]) with 8.
    replace (len (ch_server_challenge c)) with 8 by (unfold len; now rewrite Hs).
    assert (D : forall o f, len (descriptor o f) = 8) by (intros; unfold len; now rewrite descriptor_length).
    rewrite !D. unfold v. rewrite opt_version_bytes_len. destruct (is_some (ch_version c)); lia.
Qed.
Lemma costs_authenticate cfg a : valid_authenticate a ->
  costs (authenticate_effort cfg a) (authenticate_ser cfg a) (3 * len (authenticate_bytes cfg a)).
Proof.
  intros (Hlm & Hnt & _ & _ & _ & Hk & _ & _ & [Hm _] & _) w. unfold authenticate_effort, authenticate_ser.
  set (c1 := len (content (opt_map lm_bytes (a_lm a)))). set (c2 := len (content (opt_map (nt_bytes cfg) (a_nt a)))).
  set (c3 := len (content (opt_map utf16le (a_domain a)))). set (c4 := len (content (opt_map utf16le (a_user a)))).
  set (c5 := len (content (opt_map utf16le (a_workstation a)))). set (c6 := len (content (a_session_key a))).
  assert (Hid : opt_map (fun x : bytes => x) (a_session_key a) = a_session_key a) by (now destruct (a_session_key a)).
  set (v := len (opt_version_bytes (a_version a))).
  assert (Hmic : len (a_mic a) = 16) by (unfold len; now rewrite Hm).
  apply does_more with
    (k := (64 + (if is_some (a_version a) then 14 else 0)) + ((1 + len (a_mic a)) + ((1 + len SIGNATURE) + (5 +
       ((12 + 2 * c1) + ((12 + 2 * c2) + ((12 + 2 * c3) + ((12 + 2 * c4) + ((12 + 2 * c5) + ((12 + 2 * c6) +
       (5 + (1 + (v + 16 + c1 + c2 + c3 + c4 + c5 + c6))))))))))))).
  - eapply does_bind; [apply does_start|]. intros p Hp. apply does_raw_then. apply does_raw_then.
    eapply does_bind; [apply (costs_uint 4)|]. intros [k0 w0] _.
    eapply does_bind.
    { apply does_append_opt; [apply value_for_writes; intros x Hx; apply writes_lm; rewrite Hx in Hlm; exact Hlm|].
      intros x Hx. eapply costs_more; [apply costs_lm; rewrite Hx in Hlm; exact Hlm|lia]. }
    intros [[k1 p1] w1] H1.
    eapply does_bind.
    { apply does_append_opt; [apply value_for_nt; exact Hnt|].
      intros x Hx. eapply costs_more; [apply costs_nt; rewrite Hx in Hnt; exact Hnt|lia]. }
    intros [[k2 p2] w2] H2.
    eapply does_bind; [apply does_append_opt; [apply names_for, writes_unicode|exact (costs_names _)]|].
    intros [[k3 p3] w3] H3.
    eapply does_bind; [apply does_append_opt; [apply names_for, writes_unicode|exact (costs_names _)]|].
    intros [[k4 p4] w4] H4.
    eapply does_bind; [apply does_append_opt; [apply names_for, writes_unicode|exact (costs_names _)]|].
    intros [[k5 p5] w5] H5.
    assert (D6 : does (e_append (e_opt (e_buf 16) (a_session_key a)) p5 w5) (append (opt_ser (buf_ser 16) (a_session_key a)) p5 w5)
      (12 + 2 * len (content (opt_map (fun x : bytes => x) (a_session_key a))))
      (holds_at_most (len p5 + len (content (opt_map (fun x : bytes => x) (a_session_key a)))))).
    { apply does_append_opt.
      - apply value_for_writes. intros x Hx. rewrite Hx in Hk. apply writes_buf, Hk.
      - intros x Hx. rewrite Hx in Hk. destruct Hk as [Hk _]. eapply costs_more; [apply costs_buf, Hk|]. unfold len. rewrite Hk. lia. }
    rewrite Hid in D6. fold c6 in D6. eapply does_bind; [exact D6|]. intros [[k6 p6] w6] H6.
    eapply does_bind; [apply costs_flags|]. intros [k7 w7] _.
    unfold holds_at_most in *. cbn [fst snd] in *. fold c1 in H1. fold c2 in H2. fold c3 in H3. fold c4 in H4. fold c5 in H5. fold v in Hp.
    unfold write_all in H1. rewrite len_app in H1.
    apply does_finish. lia.
  - unfold authenticate_bytes. rewrite !len_app, len_concat_descriptors. unfold contents, authenticate_fields. cbn [flat_map length].
    rewrite !len_app. fold c1 c2 c3 c4 c5 c6 v. change (len (@nil N)) with 0. change (len NTLMSSP) with 8. change (len SIGNATURE) with 8.
    change (len (le32 3)) with 4. change (len (le32 (a_flags a))) with 4.
    unfold v. rewrite opt_version_bytes_len. destruct (is_some (a_version a)); lia.
Qed.

(** The counting encoders are the encoders. *)
Lemma C108_same_lem : forall cfg w,
  (forall n, valid_negotiate n -> snd (negotiate_effort n w) = negotiate_ser n w)
  /\ (forall c, valid_challenge c -> snd (challenge_effort cfg c w) = challenge_ser cfg c w)
  /\ (forall a, valid_authenticate a -> snd (authenticate_effort cfg a w) = authenticate_ser cfg a w).
Proof.
  intros cfg w. repeat split; intros m V.
  - now apply costs_negotiate.
  - now apply costs_challenge.
  - now apply costs_authenticate.
Qed.
(** Three units for every byte of the message, whether it is written or, since a
    field is too long, the encoder panics. *)
Lemma C108_linear_lem : forall cfg w,
  (forall n, valid_negotiate n -> fst (negotiate_effort n w) <= 3 * len (negotiate_bytes n))
  /\ (forall c, valid_challenge c -> fst (challenge_effort cfg c w) <= 3 * len (challenge_bytes cfg c))
  /\ (forall a, valid_authenticate a -> fst (authenticate_effort cfg a w) <= 3 * len (authenticate_bytes cfg a)).
Proof.
  intros cfg w. repeat split; intros m V.
  - now apply costs_negotiate.
  - now apply costs_challenge.
  - now apply costs_authenticate.
Qed.

(** ** The MIC *)
Lemma with_zero_mic a : valid_authenticate a -> valid_authenticate (with_mic a (buf_default 16)).
Proof.
  unfold valid_authenticate. cbn [with_mic a_lm a_nt a_domain a_user a_workstation a_session_key a_flags a_version a_mic a_exported_key].
  intros (H1 & H2 & H3 & H4 & H5 & H6 & H7 & H8 & _ & H10). repeat split; try assumption.
  apply Forall_forall. intros x Hx. apply repeat_spec in Hx. now subst x.
Qed.
Lemma zero_mic_len cfg a : valid_authenticate a ->
  len (authenticate_bytes cfg (with_mic a (buf_default 16))) = len (authenticate_bytes cfg a).
Proof.
  intros (_ & _ & _ & _ & _ & _ & _ & _ & [Hm _] & _). unfold authenticate_bytes, authenticate_fields.
  cbn [with_mic a_lm a_nt a_domain a_user a_workstation a_session_key a_flags a_version a_mic a_exported_key].
  rewrite !len_app, !len_concat_descriptors. cbn [length].
  replace (len (a_mic a)) with 16 by (unfold len; now rewrite Hm). reflexivity.
Qed.
Lemma with_len {A} (x : counted A) y k (Q R : A -> Prop) : does x y k Q -> (forall a, y = Val a -> R a) -> does x y k R.
Proof. intros (H1 & H2 & _) H. now repeat split. Qed.
(** Computing the MIC takes four units for every byte of the three messages. *)
Lemma C108_mic_lem : forall cfg P a n c, valid_authenticate a -> valid_negotiate n -> valid_challenge c ->
  snd (mic_effort cfg P a n c) = compute_mic cfg P a n c
  /\ fst (mic_effort cfg P a n c)
     <= 4 * (len (negotiate_bytes n) + len (challenge_bytes cfg c) + len (authenticate_bytes cfg a)).
Proof.
  intros cfg P a n c Va Vn Vc.
  set (ln := len (negotiate_bytes n)). set (lc := len (challenge_bytes cfg c)). set (la := len (authenticate_bytes cfg a)).
  assert (D : does (mic_effort cfg P a n c) (compute_mic cfg P a n c) (3 * ln + (3 * lc + (3 * la + (ln + lc + la + 0)))) whatever).
  { unfold mic_effort, compute_mic. destruct (a_exported_key a) as [key|].
    - pose proof (with_zero_mic a Va) as Vz. pose proof (zero_mic_len cfg a Va) as Lz. fold la in Lz.
      eapply does_bind with (Q := fun x => len (snd x) = ln).
      { eapply with_len; [now apply costs_negotiate|]. intros x. rewrite negotiate_ser_spec by exact Vn.
        destruct (fitsb _); [|discriminate]. intros E. now injection E as <-. }
      intros [k1 b1] H1. cbn [snd] in H1.
      eapply does_bind with (Q := fun x => len (snd x) = ln + lc).
      { eapply with_len; [now apply costs_challenge|]. intros x. rewrite challenge_ser_spec by exact Vc.
        destruct (fitsb _); [|discriminate]. intros E. injection E as <-. cbn [snd]. rewrite len_app, H1. reflexivity. }
      intros [k2 b2] H2. cbn [snd] in H2. rewrite <- Lz.
      eapply does_bind with (Q := fun x => len (snd x) = ln + lc + la).
      { eapply with_len; [now apply costs_authenticate|]. intros x. rewrite authenticate_ser_spec by exact Vz.
        destruct (fitsb _); [|discriminate]. intros E. injection E as <-. cbn [snd]. rewrite len_app, H2, Lz. reflexivity. }
      intros [k3 b3] H3. cbn [snd] in H3. rewrite Lz, <- H3. apply does_tick. apply does_ret. exact I.
    - eapply does_more; [apply does_ret; exact I|lia]. }
  destruct D as (D1 & D2 & _). split; [exact D1|]. lia.
Qed.

(** ** Calls of the writer *)
Definition makes {A : Type} (B : N) (k : nat) (g : writer -> ior A) (r : A) : Prop :=
  forall w, takes_at_once B w -> exists w', g w = Val (Some r, w') /\ plan w' = skipn k (plan w).
Lemma takes_skipn B k w w' : takes_at_once B w -> plan w' = skipn k (plan w) -> takes_at_once B w'.
Proof.
  unfold takes_at_once. intros H ->. rewrite <- (firstn_skipn k (plan w)) in H. apply Forall_app in H. tauto.
Qed.
Lemma skipn_skipn_add {A} i j (l : list A) : skipn j (skipn i l) = skipn (i + j) l.
Proof. revert l. induction i as [|i IH]; intros l; [reflexivity|]. destruct l; [now rewrite !skipn_nil|]. cbn [skipn Nat.add]. apply IH. Qed.
Lemma makes_bind {A C} B k l (g : writer -> ior A) (h : A -> writer -> ior C) r s :
  makes B k g r -> makes B l (h r) s -> makes B (k + l) (fun w => iobind (g w) h) s.
Proof.
  intros G H w W. destruct (G w W) as (w1 & E1 & P1). destruct (H w1 (takes_skipn _ _ _ _ W P1)) as (w2 & E2 & P2).
  exists w2. unfold iobind. rewrite E1. cbn [obind]. split; [exact E2|]. now rewrite P2, P1, skipn_skipn_add.
Qed.
Lemma makes_ret {A} B (r : A) : makes B 0 (fun w => Val (Some r, w)) r.
Proof. intros w _. now exists w. Qed.
Lemma makes_raw B b n : len b <= B -> makes B (if is_nil b then 0 else 1) (io_raw b n) n.
Proof.
  intros L [g p] W. unfold io_raw, io_write_all. cbn [plan got].
  destruct b as [|x b]; [cbn [is_nil]; exists (mkWriter g p); now destruct p|].
  cbn [is_nil]. destruct p as [|a p]; [cbn; eexists; split; reflexivity|].
  apply Forall_inv in W. destruct a as [m| |]; try contradiction.
  cbn [write_all_go is_nil]. set (c := x :: b) in *.
  replace (N.min m (len c)) with (len c) by lia. rewrite len_nat.
  destruct (length c =? 0)%nat eqn:E; [unfold c in E; discriminate|].
  rewrite skipn_all, firstn_all. exists (mkWriter (g ++ c) p). cbn [plan skipn]. split; [|reflexivity].
  now destruct p.
Qed.
Lemma makes_uint B k n : N.of_nat k <= B -> (0 < k)%nat -> makes B 1 (io_uint k n) (N.of_nat k).
Proof.
  intros L K. unfold io_uint. rewrite <- (len_le_enc k n).
  replace 1%nat with (if is_nil (le_enc k n) then 0%nat else 1%nat) by (destruct k; [lia|reflexivity]).
  apply makes_raw. now rewrite len_le_enc.
Qed.
Lemma makes_field B f : 8 <= B -> makes B 3 (io_field f) 8.
Proof.
  intros L. unfold io_field, io_seq.
  apply (makes_bind B 1 2 _ _ 2 8); [apply (makes_uint B 2); lia|].
  apply (makes_bind B 2 0 _ _ 6 8); [|apply makes_ret].
  apply (makes_bind B 1 1 _ _ 2 6); [apply (makes_uint B 2); lia|].
  apply (makes_bind B 1 0 _ _ 4 6); [apply (makes_uint B 4); lia|apply makes_ret].
Qed.
Lemma makes_append B value f data : 8 <= B -> value_for value f -> len data < 4294967296 -> len (content f) <= 65535 ->
  makes B 3 (io_append value data) (8, data ++ content f).
Proof.
  intros L F D C. unfold io_append.
  destruct value as [s|], f as [b|]; cbn [value_for content] in *; try contradiction.
  - unfold to_u32. destruct (len data <? 4294967296) eqn:E; [|lia]. cbn [obind].
    destruct (len b <=? 65535) eqn:E1; [|lia]. rewrite F. cbn [obind]. unfold to_u16.
    destruct (len b <? 65536) eqn:E2; [|lia]. cbn [obind].
    apply (makes_bind B 3 0 _ _ 8 (8, data ++ b)); [now apply makes_field|apply makes_ret].
  - cbn [obind]. rewrite app_nil_r.
    apply (makes_bind B 3 0 _ _ 8 (8, data)); [now apply makes_field|apply makes_ret].
Qed.
Lemma makes_append_many B cfg l data : 8 <= B -> Forall valid_av_pair l -> len data < 4294967296 ->
  len (content (av_list_field cfg l)) <= 65535 ->
  makes B 3 (io_append_many (av_pair_ser cfg) l data) (8, data ++ content (av_list_field cfg l)).
Proof.
  intros L V D C. unfold io_append_many. destruct l as [|x l].
  - cbn [is_nil obind av_list_field content]. rewrite app_nil_r.
    apply (makes_bind B 3 0 _ _ 8 (8, data)); [now apply makes_field|apply makes_ret].
  - cbn [is_nil av_list_field content] in *. unfold to_u32. destruct (len data <? 4294967296) eqn:E; [|lia]. cbn [obind].
    rewrite av_vec_spec by exact V. destruct (av_strings_fit cfg (x :: l)) eqn:S.
    + cbn [obind]. unfold to_u16. destruct (len (av_list_bytes cfg (x :: l)) <? 65536) eqn:E2; [|lia]. cbn [obind].
      apply (makes_bind B 3 0 _ _ 8 (8, data ++ av_list_bytes cfg (x :: l))); [now apply makes_field|apply makes_ret].
    + apply av_strings_fit_total in S. lia.
Qed.
Lemma makes_finish B off x pay : pay = zeros (N.to_nat off) ++ x -> len x <= B ->
  makes B (if is_nil x then 0 else 1) (io_finish off off pay) (off + len x).
Proof.
  intros -> L. unfold io_finish. rewrite N.eqb_refl.
  rewrite len_app, len_zeros, N2Nat.id.
  rewrite slice_ok by (rewrite ?len_app, ?len_zeros; lia). cbn [obind].
  replace (off + len x - off) with (len x) by lia.
  unfold sub. rewrite len_nat.
  rewrite skipn_app_exact by (unfold zeros; now rewrite repeat_length).
  rewrite firstn_all. now apply makes_raw.
Qed.
Lemma makes_weaken {A} B k l (g : writer -> ior A) r : makes B k g r -> (k <= l)%nat ->
  forall w, takes_at_once B w -> exists w' j, g w = Val (Some r, w') /\ (j <= l)%nat /\ plan w' = skipn j (plan w).
Proof. intros H L w W. destruct (H w W) as (w' & E & P). now exists w', k. Qed.

Lemma makes_negotiate n B : valid_negotiate n -> fits (negotiate_fields n) -> len (negotiate_bytes n) <= B ->
  exists k, (k <= 10)%nat /\ makes B k (io_negotiate n) (len (negotiate_bytes n)).
Proof.
  intros V F L.
  assert (E : len (negotiate_bytes n) = 32 + len (opt_version_bytes (n_version n)
     ++ content (opt_map utf8 (n_domain n)) ++ content (opt_map utf8 (n_workstation n)))).
  { unfold negotiate_bytes, contents, negotiate_fields. rewrite !len_app, len_concat_descriptors.
    cbn [flat_map length]. rewrite !len_app. change (len (@nil N)) with 0. change (len NTLMSSP) with 8.
    change (len (le32 1)) with 4. change (len (le32 (n_flags n))) with 4. lia. }
  rewrite E in *. unfold io_negotiate. rewrite start_payload_spec. cbn [obind].
  apply Forall_cons_iff in F as [F1 F]. apply Forall_cons_iff in F as [F2 _].
  pose proof (opt_version_bytes_len (n_version n)) as Lv.
  set (pay := zeros 32 ++ opt_version_bytes (n_version n)).
  assert (Lp : len pay <= 40) by (unfold pay; rewrite len_app, len_zeros, Lv; destruct (is_some _); lia).
  eexists. split; cycle 1.
  - eapply makes_bind; [apply (makes_raw B SIGNATURE 8); change (len SIGNATURE) with 8; lia|].
    eapply makes_bind; [apply (makes_uint B 4); lia|].
    eapply makes_bind; [apply (makes_uint B 4); lia|].
    eapply makes_bind; [apply makes_append with (f := opt_map utf8 (n_domain n)); [lia|apply names_for, writes_oem|lia|exact F1]|].
    cbn [fst snd].
    eapply makes_bind; [apply makes_append with (f := opt_map utf8 (n_workstation n)); [lia|apply names_for, writes_oem|rewrite len_app; lia|exact F2]|].
    cbn [fst snd]. change (8 + N.of_nat 4 + N.of_nat 4 + 8 + 8) with 32.
    apply makes_finish; [unfold pay; now rewrite <- !app_assoc|lia].
  - cbn [is_nil SIGNATURE]. destruct (is_nil _); lia.
Qed.
Lemma makes_challenge cfg c B : valid_challenge c -> fits (challenge_fields cfg c) -> len (challenge_bytes cfg c) <= B ->
  exists k, (k <= 12)%nat /\ makes B k (io_challenge cfg c) (len (challenge_bytes cfg c)).
Proof.
  intros (_ & _ & [Hs _] & V & _) F L.
  assert (E : len (challenge_bytes cfg c) = 48 + len (opt_version_bytes (ch_version c)
     ++ content (opt_map utf16le (ch_target_name c)) ++ content (av_list_field cfg (ch_target_infos c)))).
  { unfold challenge_bytes. cbn [challenge_fields descriptors nth]. unfold contents, challenge_fields.
    rewrite !len_app. cbn [flat_map length]. rewrite !len_app.
    assert (D : forall o f, len (descriptor o f) = 8) by (intros; unfold len; now rewrite descriptor_length). rewrite !D.
    replace (len (ch_server_challenge c)) with 8 by (unfold len; now rewrite Hs).
    change (len (@nil N)) with 0. change (len NTLMSSP) with 8. change (len [0; 0; 0; 0; 0; 0; 0; 0]) with 8.
    change (len (le32 2)) with 4. change (len (le32 (ch_flags c))) with 4. lia. }
  rewrite E in *. unfold io_challenge. rewrite start_payload_spec. cbn [obind].
  apply Forall_cons_iff in F as [F1 F]. apply Forall_cons_iff in F as [F2 _].
  pose proof (opt_version_bytes_len (ch_version c)) as Lv.
  set (pay := zeros 48 ++ opt_version_bytes (ch_version c)).
  assert (Lp : len pay <= 56) by (unfold pay; rewrite len_app, len_zeros, Lv; destruct (is_some _); lia).
  eexists. split; cycle 1.
  - eapply makes_bind; [apply (makes_raw B SIGNATURE 8); change (len SIGNATURE) with 8; lia|].
    eapply makes_bind; [apply (makes_uint B 4); lia|].
    eapply makes_bind; [apply makes_append with (f := opt_map utf16le (ch_target_name c)); [lia|apply names_for, writes_unicode|lia|exact F1]|].
    cbn [fst snd].
    eapply makes_bind; [apply (makes_uint B 4); lia|].
    eapply makes_bind; [apply (makes_raw B (ch_server_challenge c) 8); unfold len; rewrite Hs; lia|].
    eapply makes_bind; [apply (makes_uint B 8); lia|].
    eapply makes_bind; [apply makes_append_many; [lia|exact V|rewrite len_app; lia|exact F2]|].
    cbn [fst snd]. change (8 + N.of_nat 4 + 8 + N.of_nat 4 + 8 + N.of_nat 8 + 8) with 48.
    apply makes_finish; [unfold pay; now rewrite <- !app_assoc|lia].
  - cbn [is_nil SIGNATURE]. destruct (is_nil _), (is_nil _); lia.
Qed.
Lemma makes_authenticate cfg a B : valid_authenticate a -> fits (authenticate_fields cfg a) -> len (authenticate_bytes cfg a) <= B ->
  exists k, (k <= 22)%nat /\ makes B k (io_authenticate cfg a) (len (authenticate_bytes cfg a)).
Proof.
  intros (Hlm & Hnt & _ & _ & _ & Hk & _ & _ & [Hm _] & _) F L.
  assert (Hid : opt_map (fun x : bytes => x) (a_session_key a) = a_session_key a) by (now destruct (a_session_key a)).
  assert (Hmic : len (a_mic a) = 16) by (unfold len; now rewrite Hm).
  assert (E : len (authenticate_bytes cfg a) = 64 + len (opt_version_bytes (a_version a) ++ a_mic a
     ++ content (opt_map lm_bytes (a_lm a)) ++ content (opt_map (nt_bytes cfg) (a_nt a))
     ++ content (opt_map utf16le (a_domain a)) ++ content (opt_map utf16le (a_user a))
     ++ content (opt_map utf16le (a_workstation a)) ++ content (a_session_key a))).
  { unfold authenticate_bytes, contents, authenticate_fields. rewrite !len_app, len_concat_descriptors.
    cbn [flat_map length]. rewrite !len_app. change (len (@nil N)) with 0. change (len NTLMSSP) with 8.
    change (len (le32 3)) with 4. change (len (le32 (a_flags a))) with 4. lia. }
  rewrite E in *. unfold io_authenticate. rewrite start_payload_spec. cbn [obind]. cbv zeta.
  apply Forall_cons_iff in F as [F1 F]. apply Forall_cons_iff in F as [F2 F]. apply Forall_cons_iff in F as [F3 F].
  apply Forall_cons_iff in F as [F4 F]. apply Forall_cons_iff in F as [F5 F]. apply Forall_cons_iff in F as [F6 _].
  pose proof (opt_version_bytes_len (a_version a)) as Lv.
  set (pay := (zeros 64 ++ opt_version_bytes (a_version a)) ++ a_mic a).
  assert (Lp : len pay <= 88) by (unfold pay; rewrite !len_app, len_zeros, Lv, Hmic; destruct (is_some _); lia).
  eexists. split; cycle 1.
  - eapply makes_bind; [apply (makes_raw B SIGNATURE 8); change (len SIGNATURE) with 8; lia|].
    eapply makes_bind; [apply (makes_uint B 4); lia|].
    eapply makes_bind.
    { apply makes_append with (f := opt_map lm_bytes (a_lm a)); [lia| |lia|exact F1].
      apply value_for_writes; intros x Hx; apply writes_lm; rewrite Hx in Hlm; exact Hlm. }
    cbn [fst snd].
    eapply makes_bind; [apply makes_append with (f := opt_map (nt_bytes cfg) (a_nt a)); [lia|apply value_for_nt; exact Hnt|rewrite !len_app; lia|exact F2]|].
    cbn [fst snd].
    eapply makes_bind; [apply makes_append with (f := opt_map utf16le (a_domain a)); [lia|apply names_for, writes_unicode|rewrite !len_app; lia|exact F3]|].
    cbn [fst snd].
    eapply makes_bind; [apply makes_append with (f := opt_map utf16le (a_user a)); [lia|apply names_for, writes_unicode|rewrite !len_app; lia|exact F4]|].
    cbn [fst snd].
    eapply makes_bind; [apply makes_append with (f := opt_map utf16le (a_workstation a)); [lia|apply names_for, writes_unicode|rewrite !len_app; lia|exact F5]|].
    cbn [fst snd].
    eapply makes_bind.
    { apply makes_append with (f := opt_map (fun x : bytes => x) (a_session_key a)); [lia| |rewrite !len_app; lia|rewrite Hid; exact F6].
      apply value_for_writes; intros x Hx; rewrite Hx in Hk; apply writes_buf, Hk. }
    cbn [fst snd]. rewrite Hid.
    eapply makes_bind; [apply (makes_uint B 4); lia|].
    change (8 + N.of_nat 4 + 8 + 8 + 8 + 8 + 8 + 8 + N.of_nat 4) with 64.
    apply makes_finish; [unfold pay; now rewrite <- !app_assoc|lia].
  - cbn [is_nil SIGNATURE]. destruct (is_nil _); lia.
Qed.
(** A message goes to the caller's writer in a fixed number of calls, however
    long it is: the header piece by piece, then the payload at once. *)
Lemma C108_calls_lem : forall cfg w,
  (forall n, valid_negotiate n -> fits (negotiate_fields n) -> takes_at_once (len (negotiate_bytes n)) w ->
     exists w' k, io_negotiate n w = Val (Some (len (negotiate_bytes n)), w') /\ (k <= 10)%nat /\ plan w' = skipn k (plan w))
  /\ (forall c, valid_challenge c -> fits (challenge_fields cfg c) -> takes_at_once (len (challenge_bytes cfg c)) w ->
     exists w' k, io_challenge cfg c w = Val (Some (len (challenge_bytes cfg c)), w') /\ (k <= 12)%nat /\ plan w' = skipn k (plan w))
  /\ (forall a, valid_authenticate a -> fits (authenticate_fields cfg a) -> takes_at_once (len (authenticate_bytes cfg a)) w ->
     exists w' k, io_authenticate cfg a w = Val (Some (len (authenticate_bytes cfg a)), w') /\ (k <= 22)%nat /\ plan w' = skipn k (plan w)).
Proof.
  intros cfg w. repeat split; intros m V F W.
  - destruct (makes_negotiate m _ V F (N.le_refl _)) as (k & K & M). now apply (makes_weaken _ k 10 _ _ M).
  - destruct (makes_challenge cfg m _ V F (N.le_refl _)) as (k & K & M). now apply (makes_weaken _ k 12 _ _ M).
  - destruct (makes_authenticate cfg m _ V F (N.le_refl _)) as (k & K & M). now apply (makes_weaken _ k 22 _ _ M).
Qed.
(** Two units for every byte do not do: text is written unit by unit, and then copied. *)
Lemma C108_twice_refuted_lem :
  ~ (forall cfg a, valid_authenticate a -> fst (authenticate_effort cfg a []) <= 2 * len (authenticate_bytes cfg a)).
Proof.
  intros H. specialize (H cfg_debug sample_authenticate (proj1 sample_authenticate_ok)). revert H. vm_compute. congruence.
Qed.
Example C108_ex_lem :
  valid_authenticate sample_authenticate
  /\ len (authenticate_bytes cfg_debug sample_authenticate) = 314
  /\ fst (authenticate_effort cfg_debug sample_authenticate []) = 744
  /\ fits (authenticate_fields cfg_debug sample_authenticate)
  /\ takes_at_once 314 (mkWriter [] (repeat (Accept 314) 30))
  /\ (exists w', io_authenticate cfg_debug sample_authenticate (mkWriter [] (repeat (Accept 314) 30)) = Val (Some 314, w')
               /\ plan w' = repeat (Accept 314) 8).
Proof.
  split; [apply sample_authenticate_ok|]. split; [vm_compute; reflexivity|]. split; [vm_compute; reflexivity|].
  split; [apply fitsb_fits; vm_compute; reflexivity|].
  split.
  - apply Forall_forall. intros x Hx. apply repeat_spec in Hx. subst x. apply N.le_refl.
  - exists (mkWriter (authenticate_bytes cfg_debug sample_authenticate) (repeat (Accept 314) 8)).
    split; [vm_compute; reflexivity|reflexivity].
Qed.
