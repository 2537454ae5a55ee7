(** The wire format tells different values apart. *)
From Coq Require Import ZifyBool ZifyNat ZifyN.
From Verif Require Import Base Nom Unicode Wire Structures Messages Spec Lib Encode Decode.

Ltac Zify.zify_post_hook ::= Z.div_mod_to_equations.

(** ** Lists *)
Lemma app_inj {A} (a b c d : list A) : length a = length b -> a ++ c = b ++ d -> a = b /\ c = d.
Proof.
  revert b. induction a as [|x a IH]; intros [|y b] L E; cbn in *; try discriminate; [auto|].
  injection E as -> E. destruct (IH b) as [-> ->]; auto.
Qed.
Lemma app_inj_r {A} (a b c d : list A) : length c = length d -> a ++ c = b ++ d -> a = b /\ c = d.
Proof.
  intros L E. apply app_inj; [|exact E]. apply (f_equal (@length A)) in E. rewrite !app_length in E. lia.
Qed.
(** ** Integers *)
Lemma le16_inj a b : is_u16 a -> is_u16 b -> le16 a = le16 b -> a = b.
Proof. unfold is_u16, le16. intros Ha Hb E. injection E as E1 E2. lia. Qed.
Lemma le32_inj a b : is_u32 a -> is_u32 b -> le32 a = le32 b -> a = b.
Proof.
  unfold is_u32. intros Ha Hb E. rewrite <- !le_enc_4 in E. apply (f_equal le_dec) in E.
  now rewrite !le_dec_enc in E.
Qed.
(** ** Strings *)
Lemma scalar_cases c : is_scalar c -> c < 55296 \/ 57344 <= c < 1114112.
Proof. unfold is_scalar, is_scalarb. lia. Qed.
Lemma utf8_inj s t : is_string s -> is_string t -> utf8 s = utf8 t -> s = t.
Proof.
  intros Hs Ht E. apply from_utf8_ok in Hs, Ht. rewrite E in Hs. congruence.
Qed.
Lemma utf16le_char_inj c d r r' : is_scalar c -> is_scalar d ->
  utf16le_char c ++ r = utf16le_char d ++ r' -> c = d /\ r = r'.
Proof.
  intros Hc Hd. apply scalar_cases in Hc, Hd. unfold utf16le_char.
  destruct (c <? 65536) eqn:C; destruct (d <? 65536) eqn:D; intros E.
  - apply app_inj in E as [E R]; [|reflexivity]. apply le16_inj in E; unfold is_u16; auto; lia.
  - rewrite <- app_assoc in E. apply app_inj in E as [E R]; [|reflexivity]. exfalso.
    apply le16_inj in E; unfold is_u16; lia.
  - rewrite <- app_assoc in E. apply app_inj in E as [E R]; [|reflexivity]. exfalso.
    apply le16_inj in E; unfold is_u16; lia.
  - rewrite <- !app_assoc in E. apply app_inj in E as [E1 E]; [|reflexivity].
    apply app_inj in E as [E2 E]; [|reflexivity]. split; [|exact E].
    apply le16_inj in E1; [|unfold is_u16; lia|unfold is_u16; lia].
    apply le16_inj in E2; [|unfold is_u16; lia|unfold is_u16; lia]. lia.
Qed.
Lemma utf16le_inj s : forall t, is_string s -> is_string t -> utf16le s = utf16le t -> s = t.
Proof.
  induction s as [|c s IH]; intros [|d t] Hs Ht E; [reflexivity|..].
  - exfalso. symmetry in E. revert E. apply utf16le_nonempty. discriminate.
  - exfalso. revert E. apply utf16le_nonempty. discriminate.
  - apply Forall_cons_iff in Hs as [Hc Hs]. apply Forall_cons_iff in Ht as [Hd Ht].
    unfold utf16le in E. cbn [flat_map] in E. apply utf16le_char_inj in E as [-> E]; auto.
    f_equal. now apply IH.
Qed.
Lemma swap_pairs_involutive b : swap_pairs (swap_pairs b) = b.
Proof.
  enough (forall n b, (length b <= n)%nat -> swap_pairs (swap_pairs b) = b) by eauto.
  clear b. induction n as [|n IH]; intros b H.
  - destruct b; [reflexivity|cbn in H; lia].
  - destruct b as [|x [|y r]]; [reflexivity..|]. cbn [swap_pairs length] in *. rewrite IH; [reflexivity|lia].
Qed.
Lemma utf16_host_inj cfg s t : is_string s -> is_string t -> utf16_host cfg s = utf16_host cfg t -> s = t.
Proof.
  intros Hs Ht. unfold utf16_host. destruct (host_le cfg); [now apply utf16le_inj|].
  unfold utf16be. intros E. apply (f_equal swap_pairs) in E. rewrite !swap_pairs_involutive in E. now apply utf16le_inj.
Qed.
(** ** Structures *)
Lemma version_bytes_inj v w : valid_version v -> valid_version w -> version_bytes v = version_bytes w -> v = w.
Proof.
  destruct v as [a b c d], w as [a' b' c' d']. unfold valid_version, version_bytes, is_u8.
  cbn [v_major v_minor v_build v_revision]. intros (H1 & H2 & H3 & H4) (K1 & K2 & K3 & K4) E.
  apply app_inj in E as [E1 E2]; [|reflexivity]. apply app_inj in E2 as [E2 E3]; [|reflexivity].
  apply le16_inj in E2; [|assumption..]. injection E1 as E4 E5. injection E3 as E6.
  rewrite !N.mod_small in E4, E5, E6 by assumption. now subst.
Qed.
Lemma filetime_bytes_inj t u : valid_filetime t -> valid_filetime u -> filetime_bytes t = filetime_bytes u -> t = u.
Proof.
  destruct t as [a b], u as [c d]. intros [H1 H2] [K1 K2] E. unfold filetime_bytes in E. cbn in H1, H2, K1, K2.
  apply app_inj in E as [E1 E2]; [|reflexivity]. apply le32_inj in E1; auto. apply le32_inj in E2; auto.
  cbn in *. now subst.
Qed.
Lemma single_host_bytes_inj h k : valid_single_host h -> valid_single_host k ->
  single_host_bytes h = single_host_bytes k -> h = k.
Proof.
  destruct h as [a b c d], k as [a' b' c' d']. intros (H1 & H2 & [H3 _] & [H4 _]) (K1 & K2 & [K3 _] & [K4 _]) E.
  unfold single_host_bytes in E. cbn [sh_size sh_z4 sh_custom sh_machine] in *.
  apply app_inj in E as [E1 E]; [|reflexivity]. apply app_inj in E as [E2 E]; [|reflexivity].
  apply app_inj in E as [E3 E4]; [|congruence]. apply le32_inj in E1; auto. apply le32_inj in E2; auto. now subst.
Qed.
Lemma av_code_u16 a : valid_av_pair a -> is_u16 (av_code a).
Proof. destruct a; cbn; unfold is_u16; lia. Qed.
Lemma av_bytes_inj cfg a b r r' : valid_av_pair a -> valid_av_pair b ->
  len (av_value cfg a) <= 65535 -> len (av_value cfg b) <= 65535 ->
  av_bytes cfg a ++ r = av_bytes cfg b ++ r' -> a = b /\ r = r'.
Proof.
  intros Ha Hb La Lb E. unfold av_bytes in E. rewrite <- !app_assoc in E.
  apply app_inj in E as [E1 E]; [|reflexivity]. apply app_inj in E as [E2 E]; [|reflexivity].
  apply le16_inj in E1; [|now apply av_code_u16..].
  apply le16_inj in E2; [|unfold is_u16; lia..].
  apply app_inj in E as [E3 E]; [|unfold len in E2; lia]. split; [|exact E].
  destruct a, b; cbn [av_code] in E1; try discriminate E1; cbn [av_value valid_av_pair] in *;
    try (f_equal; now apply (utf16_host_inj cfg)); try reflexivity.
  - f_equal. destruct f as [a1 a2 a3], f0 as [b1 b2 b3]. cbn [avf_constrained avf_mic avf_untrusted_spn] in E3.
    apply le32_inj in E3; [|unfold is_u32, bit; destruct a1, a2, a3; lia|unfold is_u32, bit; destruct b1, b2, b3; lia].
    unfold bit in E3. destruct a1, a2, a3, b1, b2, b3; try reflexivity; exfalso; lia.
  - f_equal. now apply filetime_bytes_inj.
  - f_equal. now apply single_host_bytes_inj.
  - now f_equal.
Qed.
Lemma av_list_bytes_inj cfg l : forall l', Forall valid_av_pair l -> Forall valid_av_pair l' ->
  av_strings_fit cfg l = true -> av_strings_fit cfg l' = true ->
  av_list_bytes cfg l = av_list_bytes cfg l' -> l = l'.
Proof.
  induction l as [|a l IH]; intros [|b l'] Hl Hl' L L' E; [reflexivity|discriminate E|discriminate E|].
  apply Forall_cons_iff in Hl as [Ha Hl]. apply Forall_cons_iff in Hl' as [Hb Hl'].
  unfold av_list_bytes, av_strings_fit in *. cbn [flat_map forallb] in *. apply andb_prop in L as [La L]. apply andb_prop in L' as [Lb L'].
  apply av_bytes_inj in E as [-> E]; auto; try lia. f_equal. apply IH; auto.
Qed.
Lemma av_fit cfg l : len (av_list_bytes cfg l) <= 65535 -> av_strings_fit cfg l = true.
Proof. intros L. destruct (av_strings_fit _ _) eqn:E; [reflexivity|]. apply av_strings_fit_total in E. lia. Qed.
Lemma ntv2_bytes_inj cfg c d : valid_nt (NtV2 c) -> valid_nt (NtV2 d) ->
  len (ntv2_bytes cfg c) <= 65535 -> len (ntv2_bytes cfg d) <= 65535 ->
  ntv2_bytes cfg c = ntv2_bytes cfg d -> c = d.
Proof.
  destruct c as [t cc l], d as [t' cc' l']. intros (H1 & [H2 _] & H3) (K1 & [K2 _] & K3) L L' E.
  cbn [nt_timestamp nt_client_challenge nt_target_infos] in *. unfold ntv2_bytes in *.
  cbn [nt_timestamp nt_client_challenge nt_target_infos] in *.
  rewrite !len_app in L, L'. apply app_inv_head in E.
  apply app_inj in E as [E1 E]; [|reflexivity]. apply filetime_bytes_inj in E1; auto.
  apply app_inj in E as [E2 E]; [|congruence]. apply app_inv_head in E.
  apply av_list_bytes_inj in E; auto; try (apply av_fit; lia). now subst.
Qed.
Lemma ntv2_bytes_long cfg c : valid_nt (NtV2 c) -> 28 <= len (ntv2_bytes cfg c).
Proof.
  intros (_ & [H _] & _). unfold ntv2_bytes, filetime_bytes. rewrite !len_app, !len_le32.
  assert (len (nt_client_challenge c) = 8) by (unfold len; now rewrite H). 
  unfold len in *. cbn [length]. lia.
Qed.
Lemma nt_bytes_inj cfg c d : valid_nt c -> valid_nt d -> len (nt_bytes cfg c) <= 65535 -> len (nt_bytes cfg d) <= 65535 ->
  nt_bytes cfg c = nt_bytes cfg d -> c = d.
Proof.
  intros Hc Hd Lc Ld E. destruct c as [r|c], d as [r'|d]; cbn [nt_bytes] in *.
  - now f_equal.
  - exfalso. apply (ntv2_bytes_long cfg) in Hd. rewrite <- E in Hd. destruct Hc as [Hc _]. unfold len in Hd. rewrite Hc in Hd. cbn in Hd. lia.
  - exfalso. apply (ntv2_bytes_long cfg) in Hc. rewrite E in Hc. destruct Hd as [Hd _]. unfold len in Hc. rewrite Hd in Hc. cbn in Hc. lia.
  - f_equal. now apply (ntv2_bytes_inj cfg).
Qed.

(** ** Descriptors *)
Lemma descriptor_length off f : length (descriptor off f) = 8%nat.
Proof. destruct f; reflexivity. Qed.
Lemma descriptor_shape off off' f f' : 0 < off < 4294967296 -> 0 < off' < 4294967296 ->
  len (content f) <= 65535 -> len (content f') <= 65535 ->
  descriptor off f = descriptor off' f' ->
  match f, f' with
  | None, None => True
  | Some x, Some y => length x = length y
  | _, _ => False
  end.
Proof.
  intros O O' L L' E. destruct f as [x|], f' as [y|]; cbn [descriptor content] in *; trivial.
  - apply app_inj in E as [E _]; [|reflexivity]. apply le16_inj in E; unfold is_u16; try lia. unfold len in E. lia.
  - change ([0; 0; 0; 0; 0; 0; 0; 0]) with ([0; 0] ++ [0; 0] ++ le32 0) in E.
    apply app_inj in E as [_ E]; [|reflexivity]. apply app_inj in E as [_ E]; [|reflexivity].
    apply le32_inj in E; unfold is_u32; lia.
  - change ([0; 0; 0; 0; 0; 0; 0; 0]) with ([0; 0] ++ [0; 0] ++ le32 0) in E.
    apply app_inj in E as [_ E]; [|reflexivity]. apply app_inj in E as [_ E]; [|reflexivity].
    apply le32_inj in E; unfold is_u32; lia.
Qed.
Definition same_shape (f f' : option bytes) : Prop :=
  match f, f' with
  | None, None => True
  | Some x, Some y => length x = length y
  | _, _ => False
  end.
Lemma descriptors_shape fs : forall fs' off off', length fs = length fs' -> fits fs -> fits fs' ->
  0 < off -> 0 < off' -> off + 65535 * len fs < 4294967296 -> off' + 65535 * len fs < 4294967296 ->
  descriptors off fs = descriptors off' fs' -> Forall2 same_shape fs fs'.
Proof.
  induction fs as [|f fs IH]; intros [|f' fs'] off off' L F F' O O' B B' E; try discriminate L; constructor.
  - cbn [descriptors] in E. injection E as E _. apply Forall_cons_iff in F as [F _]. apply Forall_cons_iff in F' as [F' _].
    rewrite len_cons in B, B'. eapply descriptor_shape; try exact E; auto; lia.
  - cbn [descriptors] in E. injection E as _ E. apply Forall_cons_iff in F as [F1 F]. apply Forall_cons_iff in F' as [F1' F'].
    rewrite len_cons in B, B'. eapply IH; try exact E; auto; try lia.
Qed.
Lemma contents_shape fs fs' r r' : Forall2 same_shape fs fs' -> contents fs ++ r = contents fs' ++ r' -> fs = fs' /\ r = r'.
Proof.
  intros H. induction H as [|f f' fs fs' S _ IH]; [auto|]. unfold contents in *. cbn [flat_map]. intros E.
  rewrite <- !app_assoc in E. destruct f as [x|], f' as [y|]; cbn [same_shape content] in *; try contradiction.
  - apply app_inj in E as [-> E]; [|exact S]. destruct (IH E) as [-> ->]. auto.
  - destruct (IH E) as [-> ->]. auto.
Qed.
Lemma contents_shape_length fs fs' : Forall2 same_shape fs fs' -> length (contents fs) = length (contents fs').
Proof.
  intros H. induction H as [|f f' fs fs' S _ IH]; [auto|]. unfold contents in *. cbn [flat_map]. rewrite !app_length, IH.
  destruct f, f'; cbn in *; try contradiction; lia.
Qed.
Lemma concat_inj (a b : list bytes) r r' : length a = length b -> Forall (fun x => length x = 8%nat) a -> Forall (fun x => length x = 8%nat) b ->
  concat a ++ r = concat b ++ r' -> a = b /\ r = r'.
Proof.
  revert b. induction a as [|x a IH]; intros [|y b] L Ha Hb E; try discriminate L; [auto|].
  apply Forall_cons_iff in Ha as [H1 Ha]. apply Forall_cons_iff in Hb as [H2 Hb].
  cbn [concat] in E. rewrite <- !app_assoc in E. apply app_inj in E as [-> E]; [|congruence].
  injection L as L. destruct (IH b L Ha Hb E) as [-> ->]. auto.
Qed.
Lemma descriptors_length off fs : length (descriptors off fs) = length fs.
Proof. revert off. induction fs as [|f fs IH]; intros off; [reflexivity|]. cbn. now rewrite IH. Qed.
Lemma descriptors_8 off fs : Forall (fun x => length x = 8%nat) (descriptors off fs).
Proof. revert off. induction fs as [|f fs IH]; intros off; constructor; [apply descriptor_length|apply IH]. Qed.

Lemma opt_version_len v : len (opt_version_bytes v) <= 8.
Proof. destruct v; cbn; unfold len; cbn; lia. Qed.
Lemma opt_version_inj v w : valid_opt valid_version v -> valid_opt valid_version w ->
  opt_version_bytes v = opt_version_bytes w -> v = w.
Proof.
  destruct v as [v|], w as [w|]; cbn [opt_version_bytes valid_opt]; intros H K E; try discriminate E; [|reflexivity].
  f_equal. now apply version_bytes_inj.
Qed.
Lemma opt_map_inj {A} (f : A -> bytes) (V : A -> Prop) x y : (forall a b, V a -> V b -> f a = f b -> a = b) ->
  valid_opt V x -> valid_opt V y -> opt_map f x = opt_map f y -> x = y.
Proof.
  intros I. destruct x as [x|], y as [y|]; cbn; intros H K E; try discriminate E; [|reflexivity].
  injection E as E. f_equal. auto.
Qed.
(** Version and contents after the descriptors *)
Lemma payload_inj v w fs fs' : Forall2 same_shape fs fs' -> valid_opt valid_version v -> valid_opt valid_version w ->
  opt_version_bytes v ++ contents fs = opt_version_bytes w ++ contents fs' -> v = w /\ fs = fs'.
Proof.
  intros S H K E. apply app_inj_r in E as [E1 E2]; [|now apply contents_shape_length].
  split; [now apply opt_version_inj|]. destruct (contents_shape fs fs' [] [] S) as [E _]; [|exact E]. now rewrite !app_nil_r.
Qed.

Lemma negotiate_bytes_inj n m : valid_negotiate n -> valid_negotiate m ->
  fits (negotiate_fields n) -> fits (negotiate_fields m) -> negotiate_bytes n = negotiate_bytes m -> n = m.
Proof.
  intros (V1 & V2 & V3 & V4) (W1 & W2 & W3 & W4) F F' E. unfold negotiate_bytes in E.
  apply app_inv_head in E. apply app_inv_head in E. apply app_inj in E as [E1 E]; [|reflexivity].
  apply le32_inj in E1; auto.
  apply concat_inj in E as [E2 E]; [|now rewrite !descriptors_length|apply descriptors_8|apply descriptors_8].
  apply descriptors_shape in E2; auto.
  2-5: pose proof (opt_version_len (n_version n)); pose proof (opt_version_len (n_version m));
       change (len (negotiate_fields n)) with 2; lia.
  apply payload_inj in E as [E3 E4]; auto. unfold negotiate_fields in E4. injection E4 as E4 E5.
  apply (opt_map_inj utf8 is_string) in E4; auto using utf8_inj. apply (opt_map_inj utf8 is_string) in E5; auto using utf8_inj.
  destruct n, m; cbn in *. now subst.
Qed.
Lemma challenge_bytes_inj cfg c d : valid_challenge c -> valid_challenge d ->
  fits (challenge_fields cfg c) -> fits (challenge_fields cfg d) -> challenge_bytes cfg c = challenge_bytes cfg d -> c = d.
Proof.
  intros (V1 & V2 & [V3 _] & V4 & V5) (W1 & W2 & [W3 _] & W4 & W5) F F' E. unfold challenge_bytes in E.
  apply app_inv_head in E. apply app_inv_head in E.
  apply app_inj in E as [D1 E]; [|cbn [nth descriptors challenge_fields]; now rewrite !descriptor_length].
  apply app_inj in E as [E1 E]; [|reflexivity]. apply le32_inj in E1; auto.
  apply app_inj in E as [E2 E]; [|congruence]. apply app_inv_head in E.
  apply app_inj in E as [D2 E]; [|cbn [nth descriptors challenge_fields]; now rewrite !descriptor_length].
  assert (S : Forall2 same_shape (challenge_fields cfg c) (challenge_fields cfg d)).
  { eapply descriptors_shape with (off := 48 + len (opt_version_bytes (ch_version c))) (off' := 48 + len (opt_version_bytes (ch_version d))); auto.
    1-4: pose proof (opt_version_len (ch_version c)); pose proof (opt_version_len (ch_version d));
         change (len (challenge_fields cfg c)) with 2; lia.
    unfold challenge_fields in *. cbn [descriptors nth] in *. now rewrite D1, D2. }
  apply payload_inj in E as [E3 E4]; auto. 
  unfold fits, challenge_fields in *. apply Forall_cons_iff in F as [_ F]. apply Forall_cons_iff in F' as [_ F'].
  apply Forall_cons_iff in F as [F _]. apply Forall_cons_iff in F' as [F' _].
  injection E4 as E4 E5.
  apply (opt_map_inj utf16le is_string) in E4; auto using utf16le_inj.
  assert (E6 : ch_target_infos c = ch_target_infos d).
  { destruct (ch_target_infos c), (ch_target_infos d); cbn [av_list_field content] in *; try discriminate E5; [reflexivity|].
    apply (f_equal content) in E5. cbn [content] in E5. apply (av_list_bytes_inj cfg); auto using av_fit. }
  destruct c, d; cbn in *. now subst.
Qed.
Lemma authenticate_bytes_inj cfg a d : valid_authenticate a -> valid_authenticate d ->
  fits (authenticate_fields cfg a) -> fits (authenticate_fields cfg d) -> authenticate_bytes cfg a = authenticate_bytes cfg d ->
  opt_map lm_bytes (a_lm a) = opt_map lm_bytes (a_lm d)
  /\ a_nt a = a_nt d /\ a_domain a = a_domain d /\ a_user a = a_user d /\ a_workstation a = a_workstation d
  /\ a_session_key a = a_session_key d /\ a_flags a = a_flags d /\ a_version a = a_version d /\ a_mic a = a_mic d.
Proof.
  intros (V1 & V2 & V3 & V4 & V5 & V6 & V7 & V8 & [V9 _] & _) (W1 & W2 & W3 & W4 & W5 & W6 & W7 & W8 & [W9 _] & _) F F' E.
  unfold authenticate_bytes in E. apply app_inv_head in E. apply app_inv_head in E.
  apply concat_inj in E as [E2 E]; [|now rewrite !descriptors_length|apply descriptors_8|apply descriptors_8].
  apply app_inj in E as [E1 E]; [|reflexivity]. apply le32_inj in E1; auto.
  assert (M : len (a_mic a) = 16 /\ len (a_mic d) = 16) by (unfold len; rewrite V9, W9; split; reflexivity).
  apply descriptors_shape in E2; auto.
  2-5: pose proof (opt_version_len (a_version a)); pose proof (opt_version_len (a_version d));
       change (len (authenticate_fields cfg a)) with 6; lia.
  assert (L : length (a_mic a ++ contents (authenticate_fields cfg a)) = length (a_mic d ++ contents (authenticate_fields cfg d))).
  { rewrite !app_length, V9, W9. f_equal. now apply contents_shape_length. }
  apply app_inj_r in E as [E3 E]; [|exact L]. apply opt_version_inj in E3; auto.
  apply app_inj in E as [E4 E]; [|congruence].
  destruct (contents_shape _ _ [] [] E2) as [E5 _]; [now rewrite !app_nil_r|].
  unfold authenticate_fields in *. injection E5 as I1 I2 I3 I4 I5 I6.
  apply (opt_map_inj utf16le is_string) in I3; auto using utf16le_inj.
  apply (opt_map_inj utf16le is_string) in I4; auto using utf16le_inj.
  apply (opt_map_inj utf16le is_string) in I5; auto using utf16le_inj.
  apply Forall_cons_iff in F as [_ F]. apply Forall_cons_iff in F as [F _].
  apply Forall_cons_iff in F' as [_ F']. apply Forall_cons_iff in F' as [F' _].
  assert (I2' : a_nt a = a_nt d).
  { destruct (a_nt a), (a_nt d); cbn [opt_map content valid_opt] in *; try discriminate I2; [|reflexivity].
    apply (f_equal content) in I2. cbn [content] in I2. f_equal. now apply (nt_bytes_inj cfg). }
  auto 10.
Qed.
