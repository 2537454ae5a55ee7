(** Facts about the cryptographic part. *)
From Coq Require Import ZifyBool ZifyNat ZifyN.
From Verif Require Import Base Nom Unicode Wire Structures Prims Messages Crypto Spec SpecCrypto Lib Encode Decode RoundTrip Parse DesKey Samples FactsEncode RealPrims.

Ltac Zify.zify_post_hook ::= Z.div_mod_to_equations.

(** ** C33 *)
(** A 7-byte key becomes 8 bytes of odd parity carrying the same 56 bits in order; the expansion is injective. *)
Lemma C33_key_expansion_lem : forall k, is_buffer 7 k ->
  exists k8, des_56bits_to_64bits k = Val k8 /\ is_buffer 8 k8
    /\ Forall (fun x => odd_number (msb_bits x) = true) k8
    /\ flat_map (fun x => firstn 7 (msb_bits x)) k8 = flat_map msb_bits k
    /\ k8 = expand_key k
    /\ forall k', is_buffer 7 k' -> des_56bits_to_64bits k' = Val k8 -> k' = k.
Proof.
  intros k Hk. exists (expand_key k). destruct (expand_props k Hk) as (H1 & H2 & H3).
  split; [now apply expand_ok|]. split; [exact H1|]. split; [exact H2|]. split; [exact H3|]. split; [reflexivity|].
  intros k' Hk' E. rewrite expand_ok in E by exact Hk'.
  assert (E' : expand_key k' = expand_key k) by congruence. clear E.
  destruct (expand_props k' Hk') as (_ & _ & H3'). rewrite E', H3 in H3'.
  symmetry. apply msb_concat_inj; [apply Hk|apply Hk'|exact H3'].
Qed.
(** Any other length panics. *)
Lemma C33_wrong_length_panics_lem : forall k, length k <> 7%nat -> des_56bits_to_64bits k = Panic PAssert.
Proof. intros k H. unfold des_56bits_to_64bits. apply Nat.eqb_neq in H. now rewrite H. Qed.
Example C33_ex_lem : is_buffer 7 [80; 65; 83; 83; 87; 79; 82]
  /\ des_56bits_to_64bits [80; 65; 83; 83; 87; 79; 82] = Val [81; 32; 84; 107; 52; 186; 61; 164].
Proof. split; [closed_valid|reflexivity]. Qed.

(** ** C34 *)
Lemma utf8_char_pos c : 1 <= len (utf8_char c).
Proof. unfold utf8_char. repeat destruct (_ <? _); cbn; lia. Qed.
Lemma split_at_byte_some n s a b : split_at_byte n s = Some (a, b) <-> s = a ++ b /\ len (utf8 a) = n.
Proof.
  revert n a b. induction s as [|c r IH]; intros n a b; cbn [split_at_byte].
  - destruct (n =? 0) eqn:E; split.
    + intros H; injection H as <- <-. split; [reflexivity|cbn; lia].
    + intros [H1 H2]. destruct a; [|discriminate]. destruct b; [reflexivity|discriminate].
    + discriminate.
    + intros [H1 H2]. destruct a; [|discriminate]. cbn in H2. lia.
  - destruct (n =? 0) eqn:E.
    + split.
      * intros H; injection H as <- <-. split; [reflexivity|cbn; lia].
      * intros [H1 H2]. destruct a as [|x a].
        -- cbn in H1. now subst.
        -- cbn [utf8 flat_map] in H2. rewrite len_app in H2. pose proof (utf8_char_pos x). lia.
    + destruct (n <? len (utf8_char c)) eqn:E2.
      * split; [discriminate|]. intros [H1 H2]. destruct a as [|x a]; [cbn in H2; lia|].
        injection H1 as <- ->. cbn [utf8 flat_map] in H2. rewrite len_app in H2. lia.
      * destruct (split_at_byte (n - len (utf8_char c)) r) as [[a' b']|] eqn:E3.
        -- split.
           ++ intros H; injection H as <- <-. apply IH in E3. destruct E3 as [-> E3].
              split; [reflexivity|]. unfold utf8 in *. cbn [flat_map]. rewrite len_app. lia.
           ++ intros [H1 H2]. destruct a as [|x a]; [cbn in H2; lia|]. injection H1 as <- H1.
              unfold utf8 in *. cbn [flat_map] in H2. rewrite len_app in H2.
              assert (H : split_at_byte (n - len (utf8_char c)) r = Some (a, b)) by (apply IH; split; [exact H1|lia]).
              rewrite E3 in H. injection H as -> ->. reflexivity.
        -- split; [discriminate|]. intros [H1 H2]. destruct a as [|x a]; [cbn in H2; lia|]. injection H1 as <- H1.
           unfold utf8 in *. cbn [flat_map] in H2. rewrite len_app in H2.
           assert (H : split_at_byte (n - len (utf8_char c)) r = Some (a, b)) by (apply IH; split; [exact H1|lia]).
           congruence.
Qed.
Lemma split_at_byte_none n s : split_at_byte n s = None <-> forall a b, s = a ++ b -> len (utf8 a) <> n.
Proof.
  destruct (split_at_byte n s) as [[a b]|] eqn:E.
  - split; [discriminate|]. intros H. apply split_at_byte_some in E. destruct E as [E1 E2]. now destruct (H a b E1).
  - split; [|reflexivity]. intros _ a b H1 H2.
    assert (H : split_at_byte n s = Some (a, b)) by (apply split_at_byte_some; auto). congruence.
Qed.
Lemma utf8_ascii s : is_ascii s -> utf8 s = s.
Proof.
  induction 1 as [|c s Hc Hs IH]; [reflexivity|]. unfold utf8 in *. cbn [flat_map]. rewrite IH.
  unfold utf8_char. replace (c <? 128) with true by lia. reflexivity.
Qed.
Lemma upper_ascii_ascii s : is_ascii s -> is_ascii (map upper_ascii s).
Proof.
  induction 1 as [|c s Hc Hs IH]; cbn; constructor; [|exact IH]. unfold upper_ascii.
  destruct ((97 <=? c) && (c <=? 122)); lia.
Qed.
Lemma to_uppercase_ascii P s : prims_ok P -> is_ascii s -> to_uppercase P s = map upper_ascii s.
Proof.
  intros HP. induction 1 as [|c s Hc Hs IH]; [reflexivity|]. unfold to_uppercase in *. cbn [flat_map map].
  rewrite IH, ok_upper_ascii by assumption. reflexivity.
Qed.
Lemma is_ascii_app a b : is_ascii (a ++ b) <-> is_ascii a /\ is_ascii b.
Proof. apply Forall_app. Qed.
Lemma is_ascii_firstn n s : is_ascii s -> is_ascii (firstn n s).
Proof. apply Forall_firstn. Qed.
Lemma is_ascii_skipn n s : is_ascii s -> is_ascii (skipn n s).
Proof. apply Forall_skipn. Qed.
Lemma is_ascii_zeros n : is_ascii (zeros n).
Proof. unfold zeros; induction n; cbn; constructor; auto. lia. Qed.
Lemma is_ascii_bytes s : is_ascii s -> is_bytes s.
Proof. apply Forall_impl. unfold is_u8. intros; lia. Qed.
Lemma split_at_byte_ascii n s : is_ascii s -> n <= len s ->
  split_at_byte n s = Some (firstn (N.to_nat n) s, skipn (N.to_nat n) s).
Proof.
  intros H1 H2. apply split_at_byte_some. split; [now rewrite firstn_skipn|].
  rewrite utf8_ascii by now apply is_ascii_firstn. unfold len in *. rewrite firstn_length. lia.
Qed.
Lemma oem14_length pw : length (oem14 pw) = 14%nat.
Proof. unfold oem14, zeros. rewrite firstn_length, app_length, repeat_length. lia. Qed.
Lemma oem14_ascii pw : is_ascii pw -> is_ascii (oem14 pw).
Proof.
  intros H. apply is_ascii_firstn, is_ascii_app. split; [now apply upper_ascii_ascii|apply is_ascii_zeros].
Qed.
Lemma prepare_ascii P pw : prims_ok P -> is_ascii pw -> prepare_password P pw = Val (oem14 pw).
Proof.
  intros HP H. unfold prepare_password. rewrite utf8_ascii by exact H.
  destruct (len pw <? 14) eqn:E.
  - rewrite to_uppercase_ascii by assumption. unfold pad14. rewrite utf8_ascii by now apply upper_ascii_ascii.
    f_equal. unfold oem14, len in *. rewrite map_length, firstn_app, firstn_all2, map_length by (rewrite map_length; lia).
    f_equal. unfold zeros. clear. assert (H : (14 - length pw <= 14)%nat) by lia. revert H.
    generalize (14 - length pw)%nat. generalize 14%nat. intros m n. revert m. induction n as [|n IH]; intros m H; [reflexivity|].
    destruct m; [lia|]. cbn. now rewrite <- IH by lia.
  - rewrite split_at_byte_ascii by (assumption || lia). change (N.to_nat 14) with 14%nat.
    rewrite to_uppercase_ascii by (assumption || now apply is_ascii_firstn).
    f_equal. unfold oem14, len in *. rewrite firstn_app, map_length.
    replace (14 - length pw)%nat with 0%nat by lia. change (firstn 0 (zeros 14)) with (@nil N). rewrite app_nil_r. symmetry; apply firstn_map.
Qed.
Lemma sub_is_buffer b s n k : is_bytes b -> s + n <= len b -> N.to_nat n = k -> is_buffer k (sub b s n).
Proof.
  intros H1 H2 <-. split; [|now apply sub_bytes]. pose proof (sub_len b s n H2) as L. unfold len in L. lia.
Qed.
Lemma des7_ok P k d : is_buffer 7 k -> length d = 8%nat -> des7_encrypt P k d = Val (DES P k d).
Proof.
  intros H1 H2. unfold des7_encrypt. rewrite expand_ok by exact H1. cbn [obind]. unfold des_encrypt.
  destruct (expand_props k H1) as ((L & _) & _). rewrite L, H2. reflexivity.
Qed.
Lemma lmowfv1_ascii P pw : prims_ok P -> is_ascii pw -> lmowfv1 P pw = Val (LMOWFv1 P pw).
Proof.
  intros HP H. unfold lmowfv1. rewrite prepare_ascii by assumption. cbn [obind].
  pose proof (oem14_length pw) as L. pose proof (oem14_ascii pw H) as A.
  rewrite split_at_byte_ascii by (assumption || (unfold len; lia)).
  rewrite !utf8_ascii by (apply is_ascii_firstn || apply is_ascii_skipn; assumption).
  change (firstn (N.to_nat 7) (oem14 pw)) with (sub (oem14 pw) 0 7).
  replace (skipn (N.to_nat 7) (oem14 pw)) with (sub (oem14 pw) 7 7)
    by (unfold sub; apply firstn_all2; rewrite skipn_length; lia).
  rewrite !des7_ok; try reflexivity; apply sub_is_buffer; try reflexivity; try (now apply is_ascii_bytes); unfold len; lia.
Qed.
(** The hash of every ASCII password is that of MS-NLMP 3.3.1. *)
Lemma C34_lm_hash_lem : forall P pw, prims_ok P -> is_ascii pw ->
  lmowfv1 P pw = Val (LMOWFv1 P pw).
Proof. intros. now apply lmowfv1_ascii. Qed.
Lemma nth_firstn_lt {A} (d : A) n i l : (i < n)%nat -> nth i (firstn n l) d = nth i l d.
Proof.
  revert i l; induction n as [|n IH]; intros i l H; [lia|]. destruct l as [|x l]; [now destruct i|].
  destruct i as [|i]; [reflexivity|]. cbn. apply IH. lia.
Qed.
(** It depends on nothing but the first 14 characters in upper case; missing ones count as NUL. *)
Lemma C34_lm_hash_weakness_lem : forall P pw pw', prims_ok P -> is_ascii pw -> is_ascii pw' ->
  (forall i, (i < 14)%nat -> upper_ascii (nth i pw 0) = upper_ascii (nth i pw' 0)) ->
  lmowfv1 P pw = lmowfv1 P pw'.
Proof.
  intros P pw pw' HP H H' E. rewrite !lmowfv1_ascii by assumption. unfold LMOWFv1.
  replace (oem14 pw') with (oem14 pw); [reflexivity|].
  apply (nth_ext _ _ 0 0); [now rewrite !oem14_length|]. rewrite oem14_length. intros i Hi.
  assert (A : forall s, nth i (oem14 s) 0 = upper_ascii (nth i s 0)).
  { intros s. unfold oem14. rewrite nth_firstn_lt by exact Hi.
    destruct (Nat.lt_ge_cases i (length s)) as [L|L].
    - rewrite app_nth1 by (rewrite map_length; exact L).
      rewrite (nth_indep _ 0 (upper_ascii 0)) by (rewrite map_length; exact L). apply map_nth.
    - rewrite app_nth2 by (rewrite map_length; exact L). unfold zeros. rewrite nth_repeat.
      now rewrite (nth_overflow s) by exact L. }
  now rewrite !A, E.
Qed.
(** "Password" and "pASSword", and "aaaaaaaaaaaaaab" and "AAAAAAAAAAAAAA" *)
Example C34_ex_lem : prims_ok real_prims /\ is_ascii [80; 97; 115; 115; 119; 111; 114; 100]
  /\ lmowfv1 real_prims [80; 97; 115; 115; 119; 111; 114; 100]
     = Val [229; 44; 172; 103; 65; 154; 154; 34; 74; 59; 16; 143; 63; 166; 203; 109]
  /\ (forall i, (i < 14)%nat ->
        upper_ascii (nth i (repeat 97 14 ++ [98]) 0) = upper_ascii (nth i (repeat 65 14) 0)).
Proof.
  split; [apply real_prims_ok|]. split; [repeat constructor|]. split; [vm_compute; reflexivity|].
  intros i Hi. do 14 (destruct i as [|i]; [reflexivity|]). lia.
Qed.

(** Which passwords have an LM hash (used by C35). *)
Lemma des7_val P k d : length d = 8%nat ->
  (exists c, des7_encrypt P k d = Val c) <-> length k = 7%nat.
Proof.
  intros Hd. unfold des7_encrypt, des_56bits_to_64bits. destruct (length k =? 7)%nat eqn:E; cbn [obind].
  - split; [lia|]. intros _. unfold des_encrypt. rewrite map_length, seq_length, Hd. cbn. eauto.
  - split; [|lia]. intros [c H]. discriminate H.
Qed.
Lemma des7_cases P k d : length d = 8%nat ->
  (exists c, length k = 7%nat /\ des7_encrypt P k d = Val c)
  \/ (length k <> 7%nat /\ des7_encrypt P k d = Panic PAssert).
Proof.
  intros Hd. unfold des7_encrypt, des_56bits_to_64bits. destruct (length k =? 7)%nat eqn:E; cbn [obind].
  - left. unfold des_encrypt. rewrite map_length, seq_length, Hd. cbn. eexists. split; [lia|reflexivity].
  - right. split; [lia|reflexivity].
Qed.
Lemma prepare_val P pw t : prepare_password P pw = Val t <-> lm_text P pw t.
Proof.
  unfold prepare_password, lm_text, pad14. destruct (len (utf8 pw) <? 14) eqn:E.
  - split.
    + intros H; injection H as <-. left. split; [lia|reflexivity].
    + intros [[_ ->]|[H _]]; [reflexivity|lia].
  - destruct (split_at_byte 14 pw) as [[p q]|] eqn:S.
    + apply split_at_byte_some in S as S'. destruct S' as [S1 S2]. split.
      * intros H; injection H as <-. right. split; [lia|]. eauto.
      * intros [[H _]|(_ & p' & q' & H1 & H2 & ->)]; [lia|].
        assert (H : split_at_byte 14 pw = Some (p', q')) by (apply split_at_byte_some; auto).
        rewrite S in H. injection H as -> ->. reflexivity.
    + split; [discriminate|]. intros [[H _]|(_ & p' & q' & H1 & H2 & _)]; [lia|].
      rewrite split_at_byte_none in S. now destruct (S p' q' H1).
Qed.
Lemma lmowfv1_val P pw : (exists h, lmowfv1 P pw = Val h) <-> lm_hashable P pw.
Proof.
  unfold lmowfv1, lm_hashable. split.
  - intros [h H]. destruct (prepare_password P pw) as [t|] eqn:E; [|discriminate H]. cbn [obind] in H.
    destruct (split_at_byte 7 t) as [[a b]|] eqn:S; [|discriminate H].
    apply split_at_byte_some in S. destruct S as [-> S]. exists a, b.
    split; [now apply prepare_val|]. split; [exact S|].
    destruct (des7_cases P (utf8 a) LM_MAGIC eq_refl) as [(c & _ & E1)|(_ & E1)]; rewrite E1 in H; [|discriminate H].
    cbn [obind] in H.
    destruct (des7_cases P (utf8 b) LM_MAGIC eq_refl) as [(c' & L & E2)|(_ & E2)]; rewrite E2 in H; [|discriminate H].
    unfold len. lia.
  - intros (a & b & H & Ha & Hb). apply prepare_val in H. rewrite H. cbn [obind].
    assert (S : split_at_byte 7 (a ++ b) = Some (a, b)) by (apply split_at_byte_some; auto). rewrite S.
    unfold len in Ha, Hb.
    destruct (des7_cases P (utf8 a) LM_MAGIC eq_refl) as [(c & _ & E1)|(L & _)]; [|lia].
    destruct (des7_cases P (utf8 b) LM_MAGIC eq_refl) as [(c' & _ & E2)|(L & _)]; [|lia].
    rewrite E1, E2. cbn [obind]. eauto.
Qed.
Lemma lmowfv1_buffer P pw h : prims_ok P -> lmowfv1 P pw = Val h -> is_buffer 16 h.
Proof.
  intros HP. unfold lmowfv1. destruct (prepare_password P pw) as [t|]; [|discriminate]. cbn [obind].
  destruct (split_at_byte 7 t) as [[a b]|]; [|discriminate].
  assert (D : forall k c, des7_encrypt P k LM_MAGIC = Val c -> is_buffer 8 c).
  { intros k c. unfold des7_encrypt, des_56bits_to_64bits. destruct (length k =? 7)%nat; [|discriminate]. cbn [obind].
    unfold des_encrypt. rewrite map_length, seq_length. cbn [Nat.eqb length LM_MAGIC]. intros H; injection H as <-.
    split; [apply ok_des_len; try reflexivity; auto|now apply ok_des_bytes]. }
  destruct (des7_encrypt P (utf8 a) LM_MAGIC) as [x|] eqn:E1; [|discriminate]. cbn [obind].
  destruct (des7_encrypt P (utf8 b) LM_MAGIC) as [y|] eqn:E2; [|discriminate]. cbn [obind].
  intros H; injection H as <-. destruct (D _ _ E1) as [L1 B1], (D _ _ E2) as [L2 B2].
  split; [rewrite app_length; lia|now apply is_bytes_app].
Qed.

(** ** C36 *)
(** On little-endian hosts the hashes are those of MS-NLMP 3.3.1 and 3.3.2. *)
Lemma C36_nt_hashes_lem : forall cfg P pw user dom, host_le cfg = true ->
  ntowfv1 cfg P pw = NTOWFv1 P pw
  /\ ntowfv2 cfg P user (ntowfv1 cfg P pw) dom = NTOWFv2 P pw user dom.
Proof.
  intros cfg P pw user dom H. unfold ntowfv1, ntowfv2, NTOWFv2, NTOWFv1, md4, hmac_md5.
  rewrite !u16s_host. unfold utf16_host. rewrite H. split; reflexivity.
Qed.
(** The case of ASCII user names does not matter. *)
Lemma C36_user_case_lem : forall cfg P user user' hash dom, prims_ok P -> is_ascii user -> is_ascii user' ->
  map upper_ascii user = map upper_ascii user' ->
  ntowfv2 cfg P user hash dom = ntowfv2 cfg P user' hash dom.
Proof.
  intros cfg P user user' hash dom HP H H' E. unfold ntowfv2. rewrite !to_uppercase_ascii by assumption. now rewrite E.
Qed.
(** Accounts whose upper-cased user name and domain have the same concatenation have the same hash. *)
Lemma C36_concatenation_lem : forall cfg P user user' hash dom dom',
  to_uppercase P user ++ dom = to_uppercase P user' ++ dom' ->
  ntowfv2 cfg P user hash dom = ntowfv2 cfg P user' hash dom'.
Proof. intros cfg P user user' hash dom dom' E. unfold ntowfv2. now rewrite E. Qed.
(** "User", "USER" in "Domain"; "UserDO" in "MAIN" against "User" in "DOMAIN"; "DOMAIN" differs from "Domain". *)
Example C36_ex_lem : prims_ok real_prims /\ is_ascii str_User
  /\ ntowfv2 cfg_debug real_prims str_User (repeat 1 16) str_Domain
     = ntowfv2 cfg_debug real_prims [85; 83; 69; 82] (repeat 1 16) str_Domain
  /\ to_uppercase real_prims (str_User ++ [68; 79]) ++ [77; 65; 73; 78]
     = to_uppercase real_prims str_User ++ [68; 79; 77; 65; 73; 78]
  /\ ntowfv2 cfg_debug real_prims str_User (repeat 1 16) str_Domain
     <> ntowfv2 cfg_debug real_prims str_User (repeat 1 16) [68; 79; 77; 65; 73; 78].
Proof.
  split; [apply real_prims_ok|]. split; [repeat constructor|]. split; [vm_compute; reflexivity|].
  split; [vm_compute; reflexivity|]. vm_compute. discriminate.
Qed.

(** ** C39 *)
Lemma inl_inj {A B} (a b : A) : @inl A B a = inl b -> b = a.
Proof. congruence. Qed.
Lemma ft_split n : n < 18446744073709551616 ->
  let f := mkFileTime (N.land n 4294967295) (N.shiftr n 32 mod 4294967296) in
  valid_filetime f /\ filetime_value f = n.
Proof.
  intros H. cbn zeta. unfold valid_filetime, filetime_value, is_u32. cbn [ft_low ft_high].
  change 4294967295 with (N.ones 32). rewrite N.land_ones, N.shiftr_div_pow2. change (2 ^ 32) with 4294967296.
  lia.
Qed.
Lemma ft_as_u64_value f : valid_filetime f -> ft_as_u64 f = filetime_value f.
Proof.
  intros [H1 H2]. unfold ft_as_u64, filetime_value, is_u32 in *.
  rewrite N.shiftl_mul_pow2. change (2 ^ 32) with 4294967296.
  rewrite <- N.lxor_lor, N.add_nocarry_lxor; try reflexivity.
  all: apply N.bits_inj_0; intros i; rewrite N.land_spec; change 4294967296 with (2 ^ 32).
  all: destruct (N.lt_ge_cases i 32) as [L|L];
    [rewrite N.mul_pow2_bits_low by exact L; reflexivity|].
  all: replace (N.testbit (ft_low f) i) with false; [apply andb_false_r|].
  all: symmetry; destruct (N.eq_dec (ft_low f) 0) as [->|Hz]; [apply N.bits_0|].
  all: apply N.bits_above_log2, N.log2_lt_pow2; [lia|].
  all: apply N.lt_le_trans with (2 ^ 32); [exact H1|apply N.pow_le_mono_r; lia].
Qed.
(** From the epoch to the overflow bound: whole seconds are kept, as their number times 10^6. *)
Lemma C39_filetime_conversion_lem : forall cfg t, (0 <= t)%Z -> seconds t * 1000000 < 18446744073709551616 ->
  exists f, filetime_try_from t = inl f /\ valid_filetime f
    /\ ft_as_u64 f = seconds t * 1000000
    /\ (host_time cfg t -> ft_to_system_time cfg f = Some (t - t mod 1000000000)%Z).
Proof.
  intros cfg t H1 H2. unfold filetime_try_from. replace (t <? 0)%Z with false by lia.
  fold (seconds t). unfold NANO_TO_MILLI. replace (seconds t * 1000000 <? 18446744073709551616) with true by lia.
  destruct (ft_split _ H2) as [V E]. eexists. split; [reflexivity|]. split; [exact V|].
  rewrite (ft_as_u64_value _ V). split; [exact E|]. intros Hh. unfold ft_to_system_time.
  rewrite (ft_as_u64_value _ V), E. unfold NANO_TO_MILLI. rewrite N.div_mul by discriminate.
  unfold epoch_checked_add_secs, host_time, seconds in *.
  replace (if windows cfg then _ else _) with true.
  - f_equal. lia.
  - destruct (windows cfg); [specialize (Hh eq_refl)|]; symmetry; apply N.leb_le; lia.
Qed.
(** Times before the epoch and beyond the bound are errors. *)
Lemma C39_filetime_errors_lem : forall t,
  ((t < 0)%Z <-> filetime_try_from t = inr FtBeforeEpoch)
  /\ ((0 <= t)%Z /\ 18446744073709551616 <= seconds t * 1000000 <-> filetime_try_from t = inr FtOverflow).
Proof.
  intros t. unfold filetime_try_from. fold (seconds t). unfold NANO_TO_MILLI.
  destruct (t <? 0)%Z eqn:E1; [|destruct (_ <? _) eqn:E2].
  - split; split; intros; try reflexivity; try discriminate; lia.
  - split; split; intros H; try discriminate; lia.
  - split; split; intros H; try discriminate; try reflexivity; lia.
Qed.
(** Later times never get smaller values. *)
Lemma C39_filetime_monotone_lem : forall t t' f f',
  filetime_try_from t = inl f -> filetime_try_from t' = inl f' -> (t <= t')%Z -> ft_as_u64 f <= ft_as_u64 f'.
Proof.
  assert (A : forall t f, filetime_try_from t = inl f -> (0 <= t)%Z /\ ft_as_u64 f = seconds t * 1000000).
  { intros t f H. unfold filetime_try_from in H. destruct (t <? 0)%Z eqn:E1; [discriminate|].
    fold (seconds t) in H. unfold NANO_TO_MILLI in H. destruct (_ <? _) eqn:E2; [|discriminate]. apply inl_inj in H. subst f.
    apply N.ltb_lt in E2. destruct (ft_split _ E2) as [V E]. rewrite (ft_as_u64_value _ V). split; [lia|exact E]. }
  intros t t' f f' H H' L. destruct (A _ _ H) as [P1 ->], (A _ _ H') as [P2 ->].
  apply N.mul_le_mono_r. unfold seconds. apply Z2N.inj_le; try (apply Z.div_pos; lia). apply Z.div_le_mono; lia.
Qed.
(** 2020-01-01T00:00:00.5Z *)
Example C39_ex_lem : host_time cfg_windows 1577836800500000000%Z
  /\ seconds 1577836800500000000%Z * 1000000 < 18446744073709551616
  /\ filetime_try_from 1577836800500000000%Z = inl (mkFileTime 3254403072 367368)
  /\ ft_to_system_time cfg_windows (mkFileTime 3254403072 367368) = Some 1577836800000000000%Z
  /\ filetime_try_from (-1)%Z = inr FtBeforeEpoch
  /\ filetime_try_from 18446744073710000000000%Z = inr FtOverflow.
Proof.
  split; [intros _; vm_compute; discriminate|]. split; [vm_compute; reflexivity|].
  repeat split; vm_compute; reflexivity.
Qed.

(** ** C40 *)
Lemma C40_windows_filetime_refuted_lem :
  ~ (forall t f, filetime_try_from t = inl f -> Z.of_N (ft_as_u64 f) = windows_filetime t).
Proof. intros H. specialize (H 0%Z (mkFileTime 0 0) eq_refl). vm_compute in H. discriminate. Qed.
(** No time at all is converted to the FILETIME of MS-DTYP ... *)
Lemma C40_never_right_lem : forall t f, filetime_try_from t = inl f ->
  (Z.of_N (ft_as_u64 f) < windows_filetime t)%Z.
Proof.
  intros t f H. unfold filetime_try_from in H. destruct (t <? 0)%Z eqn:E1; [discriminate|].
  fold (seconds t) in H. unfold NANO_TO_MILLI in H. destruct (_ <? _) eqn:E2; [|discriminate]. apply inl_inj in H. subst f.
  apply N.ltb_lt in E2. destruct (ft_split _ E2) as [V E]. rewrite (ft_as_u64_value _ V), E.
  unfold windows_filetime, seconds. lia.
Qed.
(** ... and no FILETIME from 1970 on is read as the time it stands for. *)
Lemma C40_never_read_right_lem : forall cfg t f t', (0 <= t)%Z -> valid_filetime f ->
  Z.of_N (ft_as_u64 f) = windows_filetime t -> ft_to_system_time cfg f = Some t' -> (t + 100 * 365 * 86400 * 1000000000 < t')%Z.
Proof.
  intros cfg t f t' Ht V E H. unfold ft_to_system_time in H. set (v := ft_as_u64 f) in *.
  unfold epoch_checked_add_secs, NANO_TO_MILLI in H. destruct (if windows cfg then _ else _); [|discriminate].
  injection H as <-. unfold windows_filetime in E. lia.
Qed.
(** 2020-01-01 (FILETIME 132223104000000000) is read as the year 6160. *)
Example C40_ex_lem : valid_filetime (mkFileTime 1761935360 30785590)
  /\ Z.of_N (ft_as_u64 (mkFileTime 1761935360 30785590)) = windows_filetime 1577836800000000000%Z
  /\ ft_to_system_time cfg_debug (mkFileTime 1761935360 30785590) = Some 132223104000000000000%Z
  /\ exists f, filetime_try_from 1577836800000000000%Z = inl f.
Proof.
  split; [closed_valid|]. split; [vm_compute; reflexivity|]. split; [vm_compute; reflexivity|].
  eexists. vm_compute. reflexivity.
Qed.

(** ** C32 *)
Lemma desl_ok P k d : is_buffer 16 k -> is_buffer 8 d -> desl P k d = Val (DESL P k d).
Proof.
  intros [Lk Bk] [Ld Bd]. unfold desl. rewrite Lk, Ld. cbn [Nat.eqb andb].
  assert (E1 : firstn 7 (k ++ zeros 5) = sub k 0 7).
  { rewrite firstn_app. replace (7 - length k)%nat with 0%nat by lia. apply app_nil_r. }
  assert (E2 : firstn 7 (skipn 7 (k ++ zeros 5)) = sub k 7 7).
  { rewrite skipn_app, firstn_app, skipn_length. replace (7 - (length k - 7))%nat with 0%nat by lia. apply app_nil_r. }
  assert (E3 : skipn 14 (k ++ zeros 5) = sub k 14 2 ++ zeros 5).
  { rewrite skipn_app. replace (14 - length k)%nat with 0%nat by lia. change (skipn 0 (zeros 5)) with (zeros 5).
    f_equal. unfold sub. symmetry. apply firstn_all2. rewrite skipn_length. lia. }
  rewrite E1, E2, E3.
  assert (Z : is_buffer 7 (sub k 14 2 ++ zeros 5)).
  { destruct (sub_is_buffer k 14 2 2 Bk) as [L B]; [unfold len; lia|reflexivity|].
    split; [rewrite app_length, L; reflexivity|]. apply is_bytes_app. split; [exact B|apply is_bytes_zeros]. }
  rewrite !des7_ok; try exact Ld; try exact Z; try (apply sub_is_buffer; [exact Bk|unfold len; lia|reflexivity]).
  reflexivity.
Qed.
Lemma ess_flag f : has_flag f NTLMSSP_NEGOTIATE_EXTENDED_SESSIONSECURITY = ESS f.
Proof. apply has_flag_testbit. Qed.
Lemma ntlmv1_ok P f knt klm sc cc nolm : prims_ok P -> is_buffer 16 knt -> is_buffer 16 klm ->
  is_buffer 8 sc -> is_buffer 8 cc ->
  ntlmv1_compute_response P f knt klm sc cc nolm
  = Val (v1_lm_response P f knt klm sc cc nolm, v1_nt_response P f knt sc cc, v1_session_base_key P knt).
Proof.
  intros HP Hn Hl Hs Hc. unfold ntlmv1_compute_response, v1_lm_response, v1_nt_response. rewrite ess_flag.
  destruct (ESS f) eqn:E.
  - unfold md5. change (firstn 8 (p_md5 P (sc ++ cc))) with (sub (p_md5 P (sc ++ cc)) 0 8).
    rewrite desl_ok; [|exact Hn|].
    2: { apply sub_is_buffer; [now apply ok_md5_bytes| |reflexivity]. unfold len. rewrite ok_md5_len by exact HP. lia. }
    cbn [obind]. unfold lmv1_from_client_challenge. destruct Hc as [-> _]. reflexivity.
  - rewrite desl_ok by assumption. cbn [obind]. destruct nolm; cbn [obind]; [reflexivity|].
    now rewrite desl_ok by assumption.
Qed.
(** The response functions, for all keys, challenges and flags. *)
Lemma C32_ntlmv1_functions_lem : forall P f knt klm sc cc nolm, prims_ok P -> is_buffer 16 knt ->
  is_buffer 16 klm -> is_buffer 8 sc -> is_buffer 8 cc ->
  ntlmv1_compute_response P f knt klm sc cc nolm
  = Val (v1_lm_response P f knt klm sc cc nolm, v1_nt_response P f knt sc cc, v1_session_base_key P knt).
Proof. exact ntlmv1_ok. Qed.
(** MS-NLMP 4.2.2 and 4.2.3: user "User", password "Password". *)
Example C32_functions_ex_lem :
  let knt := [164; 244; 156; 64; 101; 16; 189; 202; 182; 130; 78; 231; 195; 15; 216; 82] in
  let klm := [229; 44; 172; 103; 65; 154; 154; 34; 74; 59; 16; 143; 63; 166; 203; 109] in
  let sc := [1; 35; 69; 103; 137; 171; 205; 239] in
  is_buffer 16 knt /\ is_buffer 16 klm /\ is_buffer 8 sc /\ is_buffer 8 (repeat 170 8)
  /\ v1_lm_response real_prims 0 knt klm sc (repeat 170 8) false
     = [152; 222; 247; 184; 127; 136; 170; 93; 175; 226; 223; 119; 150; 136; 161; 114; 222; 241; 28; 125; 92; 205; 239; 19]
  /\ v1_nt_response real_prims 0 knt sc (repeat 170 8)
     = [103; 196; 48; 17; 243; 2; 152; 162; 173; 53; 236; 230; 79; 22; 51; 28; 68; 189; 190; 217; 39; 132; 31; 148]
  /\ v1_nt_response real_prims 524288 knt sc (repeat 170 8)
     = [117; 55; 248; 3; 174; 54; 113; 40; 202; 69; 130; 4; 189; 231; 202; 248; 30; 151; 237; 38; 131; 38; 114; 50].
Proof. cbn zeta. repeat (split; [closed_valid|]). vm_compute. reflexivity. Qed.

(** ** C31 *)
Lemma kxkey_ok P f sbk lmresp sc lmowf : is_buffer 24 lmresp -> is_buffer 16 lmowf ->
  kxkey P f sbk (sub lmresp 0 8) lmowf (if ESS f then Some sc else None)
  = Val (KXKEY P f sbk lmresp sc lmowf).
Proof.
  intros [L1 B1] [L2 B2]. unfold kxkey, KXKEY.
  assert (H8 : is_buffer 8 (sub lmresp 0 8)) by (apply sub_is_buffer; [exact B1|unfold len; lia|reflexivity]).
  destruct H8 as [L8 B8]. rewrite L8. cbn [Nat.eqb negb]. destruct (ESS f); [reflexivity|].
  rewrite L2. cbn [Nat.eqb negb]. rewrite !has_flag_testbit.
  change NTLMSSP_NEGOTIATE_LM_KEY with 7. change NTLMSSP_REQUEST_NON_NT_SESSION_KEY with 22.
  destruct (N.testbit f 7).
  - assert (E : [nth 7 lmowf 0; 189; 189; 189; 189; 189; 189] = sub lmowf 7 1 ++ repeat 189 6).
    { do 16 (destruct lmowf as [|? lmowf]; [discriminate L2|]). reflexivity. }
    rewrite E. change (firstn 7 lmowf) with (sub lmowf 0 7).
    rewrite !des7_ok; try exact L8.
    + reflexivity.
    + destruct (sub_is_buffer lmowf 7 1 1 B2) as [L B]; [unfold len; lia|reflexivity|].
      split; [rewrite app_length, L; reflexivity|]. apply is_bytes_app. split; [exact B|]. repeat constructor.
    + apply sub_is_buffer; [exact B2|unfold len; lia|reflexivity].
  - destruct (N.testbit f 22); reflexivity.
Qed.
(** [kxkey] computes KXKEY of MS-NLMP 3.4.5.1 if it is given the server
    challenge exactly when EXTENDED_SESSIONSECURITY is negotiated ... *)
Lemma C31_kxkey_function_lem : forall P f sbk lmresp sc lmowf, is_buffer 24 lmresp -> is_buffer 16 lmowf ->
  kxkey P f sbk (sub lmresp 0 8) lmowf (if ESS f then Some sc else None)
  = Val (KXKEY P f sbk lmresp sc lmowf).
Proof. exact kxkey_ok. Qed.
Example C31_kxkey_ex_lem : is_buffer 24 (repeat 152 24) /\ is_buffer 16 (repeat 229 16) /\ ESS 524288 = true
  /\ KXKEY real_prims 0 (repeat 1 16) (repeat 152 24) (repeat 2 8) (repeat 229 16) = repeat 1 16
  /\ KXKEY real_prims 4194304 (repeat 1 16) (repeat 152 24) (repeat 2 8) (repeat 229 16) = repeat 229 8 ++ repeat 0 8.
Proof. repeat (split; [closed_valid|]). vm_compute. reflexivity. Qed.

(** ** C50 *)
(** The byte order of the host shows in AV pairs and in the hashes. *)
Lemma C50_byte_order_refuted_lem :
  ~ (forall a, valid_av_pair a -> serialize cfg_release (av_pair_ser cfg_release a)
                                  = serialize cfg_big_endian (av_pair_ser cfg_big_endian a))
  /\ ~ (forall pw, is_string pw -> ntowfv1 cfg_release real_prims pw = ntowfv1 cfg_big_endian real_prims pw).
Proof.
  split; intros H.
  - assert (V : valid_av_pair (AvNbDomainName [65])) by (constructor; [reflexivity|constructor]).
    specialize (H _ V). clear V. vm_compute in H. discriminate H.
  - assert (V : is_string [65]) by (constructor; [reflexivity|constructor]).
    specialize (H _ V). clear V. vm_compute in H. discriminate H.
Qed.
Lemma val_inj {A} (a b : A) : Val a = Val b -> a = b.
Proof. congruence. Qed.
Lemma utf16be_utf16le_ascii s : Forall (fun c => 0 < c < 128) s -> utf16le s = utf16be s -> s = [].
Proof.
  intros H E. destruct H as [|c s Hc Hs]; [reflexivity|]. exfalso. unfold utf16be, utf16le in E. cbn [flat_map] in E.
  unfold utf16le_char at 1 3 in E. replace (c <? 65536) with true in E by lia. cbn [app le16 swap_pairs] in E.
  injection E as E _. replace (c / 256 mod 256) with 0 in E by lia. replace (c mod 256) with c in E by lia. lia.
Qed.
(** Every non-empty name of ASCII characters is encoded differently. *)
Lemma C50_every_name_differs_lem : forall cfg cfg' s k, host_le cfg = true -> host_le cfg' = false ->
  In k [AvNbComputerName; AvNbDomainName; AvDnsComputerName; AvDnsDomainName; AvDnsTreeName; AvTargetName] ->
  Forall (fun c => 0 < c < 128) s -> s <> [] -> len (utf16le s) <= 65535 ->
  serialize cfg (av_pair_ser cfg (k s)) <> serialize cfg' (av_pair_ser cfg' (k s)).
Proof.
  intros cfg cfg' s k Hl Hb Hk Hs Hne Hlen E.
  assert (Hv : is_string s).
  { eapply Forall_impl; [|exact Hs]. intros c Hc. cbv beta in Hc. unfold is_scalar, is_scalarb. lia. }
  assert (V : valid_av_pair (k s)).
  { cbn [In] in Hk. decompose [or] Hk; try (subst k; exact Hv); contradiction. }
  assert (AV : forall cf, av_value cf (k s) = utf16_host cf s).
  { intros cf. cbn [In] in Hk. decompose [or] Hk; try (subst k; reflexivity); contradiction. }
  rewrite (writes_serialize cfg _ _ (writes_av cfg (k s) V ltac:(rewrite AV, utf16_host_len; exact Hlen))) in E.
  rewrite (writes_serialize cfg' _ _ (writes_av cfg' (k s) V ltac:(rewrite AV, utf16_host_len; exact Hlen))) in E.
  apply val_inj in E. unfold av_bytes in E. rewrite !AV, !utf16_host_len in E.
  apply app_inv_head, app_inv_head in E.
  unfold utf16_host in E. rewrite Hl, Hb in E. now apply utf16be_utf16le_ascii in E.
Qed.
(** ... and nothing else depends on the byte order: messages without AV pair names are the same. *)
Lemma C50_rest_same_lem : forall cfg cfg', 
  (forall n, valid_negotiate n -> serialize cfg (negotiate_ser n) = serialize cfg' (negotiate_ser n))
  /\ (forall c, valid_challenge c -> Forall no_text (ch_target_infos c) ->
      serialize cfg (challenge_ser cfg c) = serialize cfg' (challenge_ser cfg' c))
  /\ (forall a, valid_authenticate a ->
      (forall nt, a_nt a = Some (NtV2 nt) -> Forall no_text (nt_target_infos nt)) ->
      serialize cfg (authenticate_ser cfg a) = serialize cfg' (authenticate_ser cfg' a)).
Proof.
  intros cfg cfg'.
  assert (L : forall l, Forall no_text l -> av_list_bytes cfg l = av_list_bytes cfg' l).
  { induction 1 as [|a l Ha Hl IH]; [reflexivity|]. unfold av_list_bytes in *. cbn [flat_map]. rewrite IH.
    f_equal. destruct a; try contradiction; reflexivity. }
  split; [|split].
  - intros n V. now rewrite !negotiate_serialize.
  - intros c V H. rewrite !challenge_serialize by exact V.
    assert (E : challenge_fields cfg c = challenge_fields cfg' c).
    { unfold challenge_fields, av_list_field. rewrite (L _ H). reflexivity. }
    unfold challenge_bytes. now rewrite E.
  - intros a V H. rewrite !authenticate_serialize by exact V.
    assert (E : authenticate_fields cfg a = authenticate_fields cfg' a).
    { unfold authenticate_fields. f_equal. f_equal. destruct (a_nt a) as [[r|nt]|]; try reflexivity.
      cbn [opt_map nt_bytes]. unfold ntv2_bytes. now rewrite (L _ (H nt eq_refl)). }
    unfold authenticate_bytes. now rewrite E.
Qed.
Example C50_ex_lem : Forall no_text [AvFlags (mkAvFlags true false false); AvTimestamp (mkFileTime 1 2); AvEOL]
  /\ Forall (fun c => 0 < c < 128) str_Domain
  /\ utf16_host cfg_big_endian str_Domain = [0; 68; 0; 111; 0; 109; 0; 97; 0; 105; 0; 110].
Proof. repeat split; repeat constructor. Qed.

(** The constructor [Lmv2Challenge::from_server_challenge], offered beside the client: the same response. *)
Lemma C27_lmv2_from_server_challenge_lem : forall cfg P knt sc cc,
  prims_ok P -> is_buffer 8 sc -> is_buffer 8 cc ->
  lmv2_from_server_challenge P sc knt cc = LmV2 (p_hmac_md5 P knt (sc ++ cc)) cc
  /\ serialize cfg (lm_challenge_ser (lmv2_from_server_challenge P sc knt cc)) = Val (v2_lm_response P knt sc cc).
Proof.
  intros cfg P knt sc cc HP Hs Hc. split; [reflexivity|].
  assert (V : valid_lm (lmv2_from_server_challenge P sc knt cc)).
  { split; [split; [now apply ok_hmac_len|now apply ok_hmac_bytes]|exact Hc]. }
  exact (writes_serialize cfg _ _ (writes_lm _ V)).
Qed.
(** MS-NLMP 4.2.4.2.1 *)
Example C27_lmv2_from_server_challenge_ex_lem :
  serialize cfg_debug (lm_challenge_ser (lmv2_from_server_challenge real_prims [1; 35; 69; 103; 137; 171; 205; 239]
    (NTOWFv2 real_prims [80; 97; 115; 115; 119; 111; 114; 100] [85; 115; 101; 114] str_Domain) (repeat 170 8)))
  = Val ([134; 195; 80; 151; 172; 156; 236; 16; 37; 84; 118; 74; 87; 204; 204; 25] ++ repeat 170 8).
Proof. vm_compute. reflexivity. Qed.
