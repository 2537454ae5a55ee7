(** Proofs about the bytes that decoders ignore. *)
From Coq Require Import ZifyBool ZifyNat ZifyN.
From Verif Require Import Base Nom Unicode Wire Structures Prims Messages Spec SpecIgnore Lib Encode Decode RoundTrip Parse Samples FactsEncode FactsDecode.
Ltac Zify.zify_post_hook ::= Z.div_mod_to_equations.

Section Agree.
  Context (b c : bytes).
  Lemma agree_u16 used i : agree_at used b c -> used i -> used (i + 1) -> u16_at b i = u16_at c i.
  Proof. intros [_ A] H0 H1. unfold u16_at. now rewrite (A _ H0), (A _ H1). Qed.
  Lemma agree_u32 used i : agree_at used b c -> (forall k, i <= k < i + 4 -> used k) -> u32_at b i = u32_at c i.
  Proof.
    intros A H. unfold u32_at. rewrite (agree_u16 used i A), (agree_u16 used (i + 2) A); auto; apply H; lia.
  Qed.
  Lemma agree_sub used o n : agree_at used b c -> (forall k, o <= k < o + n -> used k) -> sub b o n = sub c o n.
  Proof.
    intros [L A] H. unfold len in L. apply (nth_ext _ _ 0 0).
    - unfold sub. rewrite !firstn_length, !skipn_length. lia.
    - intros k Hk. unfold sub in *. rewrite firstn_length, skipn_length in Hk.
      assert (G : forall (m : bytes) (x y : nat), (k < x)%nat -> nth k (firstn x (skipn y m)) 0 = nth (y + k) m 0).
      { intros m x y Hx. rewrite <- nth_skipn. rewrite <- (firstn_skipn x (skipn y m)) at 2.
        destruct (Nat.lt_ge_cases k (length (firstn x (skipn y m)))) as [Hl|Hl].
        - now rewrite app_nth1.
        - rewrite firstn_length in Hl. rewrite !nth_overflow; auto; rewrite ?app_length, ?firstn_length, ?skipn_length in *; lia. }
      rewrite !G by lia. specialize (A (o + N.of_nat k)). unfold byte_at in A.
      replace (N.to_nat (o + N.of_nat k)) with (N.to_nat o + k)%nat in A by lia. apply A, H. lia.
  Qed.
  Lemma agree_byte used i : agree_at used b c -> used i -> byte_at b i = byte_at c i.
  Proof. intros [_ A] H. now apply A. Qed.
  Lemma agree_field used o : agree_at used b c -> (forall i, field_used b o i -> used i) ->
    field_len b o = field_len c o /\ field_off b o = field_off c o
    /\ (field_len b o <> 0 -> field_data b o = field_data c o) /\ outsideb b o = outsideb c o.
  Proof.
    intros A H.
    assert (L : field_len b o = field_len c o).
    { apply (agree_u16 used _ A); apply H; left; lia. }
    assert (O : field_off b o = field_off c o).
    { apply (agree_u32 used _ A). intros k Hk. apply H. right. left. lia. }
    repeat split; auto.
    - intros N0. unfold field_data. rewrite <- L, <- O. apply (agree_sub used _ _ A). intros k Hk. apply H. right. right. auto.
    - unfold outsideb. rewrite <- L, <- O. destruct A as [-> _]. reflexivity.
  Qed.
  Lemma agree_sub_field used o k n : agree_at used b c -> (forall i, field_used b o i -> used i) -> field_len b o <> 0 ->
    k + n <= field_len b o -> sub b (field_off b o + k) n = sub c (field_off c o + k) n.
  Proof.
    intros A H N0 Hk. destruct (agree_field used o A H) as (L & O & _). rewrite <- O. apply (agree_sub used _ _ A).
    intros i Hi. apply H. right. right. lia.
  Qed.
  Lemma agree_version used f o : agree_at used b c -> (forall i, version_used f o i -> used i) ->
    opt_version_ok b f o = opt_version_ok c f o /\ opt_version_at b f o = opt_version_at c f o.
  Proof.
    intros A H. unfold opt_version_ok, opt_version_at. destruct (N.testbit f 25) eqn:E; [|auto].
    assert (B : forall i, o <= i < o + 8 -> byte_at b i = byte_at c i).
    { intros i Hi. apply (agree_byte used _ A), H. split; auto. }
    split.
    - unfold version_ok. rewrite !B by lia. destruct A as [-> _]. reflexivity.
    - unfold version_at, u16_at. rewrite !B by lia. reflexivity.
  Qed.
  Lemma agree_oem used o : agree_at used b c -> (forall i, field_used b o i -> used i) -> oem_field b o = oem_field c o.
  Proof.
    intros A H. destruct (agree_field used o A H) as (L & O & D & X). unfold oem_field. rewrite <- L, <- X.
    destruct (N.eqb_spec (field_len b o) 0); [reflexivity|]. now rewrite D.
  Qed.
  Lemma agree_unicode used o : agree_at used b c -> (forall i, field_used b o i -> used i) -> unicode_field b o = unicode_field c o.
  Proof.
    intros A H. destruct (agree_field used o A H) as (L & O & D & X). unfold unicode_field. rewrite <- L, <- X.
    destruct (N.eqb_spec (field_len b o) 0); [reflexivity|]. now rewrite D.
  Qed.
  Lemma agree_infos cfg used o : agree_at used b c -> (forall i, field_used b o i -> used i) -> infos_field cfg b o = infos_field cfg c o.
  Proof.
    intros A H. destruct (agree_field used o A H) as (L & O & D & X). unfold infos_field. rewrite <- L, <- X.
    destruct (N.eqb_spec (field_len b o) 0); [reflexivity|]. now rewrite D.
  Qed.
  Lemma agree_nt cfg used o : agree_at used b c -> (forall i, field_used b o i -> used i) -> nt_field cfg b o = nt_field cfg c o.
  Proof.
    intros A H. destruct (agree_field used o A H) as (L & O & D & X). unfold nt_field. rewrite <- L, <- X.
    destruct (N.eqb_spec (field_len b o) 0); [reflexivity|]. now rewrite D.
  Qed.
  Lemma agree_lm used o v1 : agree_at used b c -> (forall i, field_used b o i -> used i) -> lm_field b o v1 = lm_field c o v1.
  Proof.
    intros A H. destruct (agree_field used o A H) as (L & O & D & X). unfold lm_field. rewrite <- L, <- X.
    destruct (N.eqb_spec (field_len b o) 0) as [|N0]; [reflexivity|]. destruct (outsideb b o); [reflexivity|].
    destruct (N.ltb_spec (field_len b o) 24); [reflexivity|].
    pose proof (agree_sub_field used o 0 24 A H N0 ltac:(lia)) as S0. pose proof (agree_sub_field used o 0 16 A H N0 ltac:(lia)) as S1.
    pose proof (agree_sub_field used o 16 8 A H N0 ltac:(lia)) as S2. rewrite !N.add_0_r in *. now rewrite S0, S1, S2.
  Qed.
  Lemma agree_key used o k : agree_at used b c -> (forall i, k = true -> field_used b o i -> used i) ->
    key_field_res b o k = key_field_res c o k.
  Proof.
    intros A H. unfold key_field_res. destruct k; [|reflexivity]. assert (H' : forall i, field_used b o i -> used i) by auto.
    destruct (agree_field used o A H') as (L & O & D & X). rewrite <- L, <- X.
    destruct (N.eqb_spec (field_len b o) 0) as [|N0]; [reflexivity|]. destruct (outsideb b o); [reflexivity|].
    destruct (N.ltb_spec (field_len b o) 16); [reflexivity|].
    pose proof (agree_sub_field used o 0 16 A H' N0 ltac:(lia)) as S0. rewrite !N.add_0_r in S0. now rewrite S0.
  Qed.
End Agree.

(** ** C91 *)
(** A decoder looks at the bytes of the specification only: errors and panics included,
    its result is the same on inputs that agree on them. *)
Lemma C91_negotiate_ignores_lem : forall cfg b c, agree_at (negotiate_used b) b c -> negotiate_de cfg b = negotiate_de cfg c.
Proof.
  intros cfg b c A. rewrite !negotiate_de_spec. unfold negotiate_headerb.
  pose proof (proj1 A) as L.
  assert (F : u32_at b 12 = u32_at c 12) by (apply (agree_u32 b c _ _ A); intros k Hk; left; lia).
  assert (T : u32_at b 8 = u32_at c 8) by (apply (agree_u32 b c _ _ A); intros k Hk; left; lia).
  assert (S : sub b 0 8 = sub c 0 8) by (apply (agree_sub b c _ _ _ A); intros k Hk; left; lia).
  assert (V : opt_version_ok b (u32_at b 12) 32 = opt_version_ok c (u32_at b 12) 32 /\ opt_version_at b (u32_at b 12) 32 = opt_version_at c (u32_at b 12) 32)
    by (apply (agree_version b c _ _ _ A); unfold negotiate_used; auto).
  destruct V as [V1 V2].
  assert (D : oem_field b 16 = oem_field c 16) by (apply (agree_oem b c _ _ A); unfold negotiate_used; auto).
  assert (W : oem_field b 24 = oem_field c 24) by (apply (agree_oem b c _ _ A); unfold negotiate_used; auto).
  rewrite V1, V2, D, W, L, S, T, F. reflexivity.
Qed.
Lemma C91_challenge_ignores_lem : forall cfg b c, agree_at (challenge_used cfg b) b c -> challenge_de cfg b = challenge_de cfg c.
Proof.
  intros cfg b c A. rewrite !challenge_de_spec. unfold challenge_headerb.
  pose proof (proj1 A) as L.
  assert (F : u32_at b 20 = u32_at c 20) by (apply (agree_u32 b c _ _ A); intros k Hk; right; right; left; lia).
  assert (T : u32_at b 8 = u32_at c 8) by (apply (agree_u32 b c _ _ A); intros k Hk; left; lia).
  assert (S : sub b 0 8 = sub c 0 8) by (apply (agree_sub b c _ _ _ A); intros k Hk; left; lia).
  assert (K : sub b 24 8 = sub c 24 8) by (apply (agree_sub b c _ _ _ A); intros k Hk; right; right; left; lia).
  assert (R : negb (strict cfg) || beq_bytes (sub b 32 8) [0; 0; 0; 0; 0; 0; 0; 0]
            = negb (strict cfg) || beq_bytes (sub c 32 8) [0; 0; 0; 0; 0; 0; 0; 0]).
  { destruct (strict cfg) eqn:E; [|reflexivity]. rewrite (agree_sub b c _ 32 8 A); [reflexivity|].
    intros k Hk. right. right. right. left. split; [exact E|lia]. }
  assert (V : opt_version_ok b (u32_at b 20) 48 = opt_version_ok c (u32_at b 20) 48 /\ opt_version_at b (u32_at b 20) 48 = opt_version_at c (u32_at b 20) 48)
    by (apply (agree_version b c _ _ _ A); unfold challenge_used; auto 10).
  destruct V as [V1 V2].
  assert (D : unicode_field b 12 = unicode_field c 12) by (apply (agree_unicode b c _ _ A); unfold challenge_used; auto 10).
  assert (W : infos_field cfg b 40 = infos_field cfg c 40) by (apply (agree_infos b c _ _ _ A); unfold challenge_used; auto 10).
  rewrite V1, V2, D, W, L, S, T, K, R, F. reflexivity.
Qed.
Lemma C91_authenticate_ignores_lem : forall cfg b c, agree_at (authenticate_used b) b c -> authenticate_de cfg b = authenticate_de cfg c.
Proof.
  intros cfg b c A. rewrite !authenticate_de_spec. unfold authenticate_headerb, authenticate_body.
  pose proof (proj1 A) as L.
  assert (F : u32_at b 60 = u32_at c 60).
  { apply (agree_u32 b c _ _ A); intros k Hk. unfold authenticate_used. do 7 right. left. lia. }
  assert (T : u32_at b 8 = u32_at c 8) by (apply (agree_u32 b c _ _ A); intros k Hk; left; lia).
  assert (S : sub b 0 8 = sub c 0 8) by (apply (agree_sub b c _ _ _ A); intros k Hk; left; lia).
  assert (O : authenticate_mic_off b = authenticate_mic_off c) by (unfold authenticate_mic_off; now rewrite F).
  assert (K : sub b (authenticate_mic_off b) 16 = sub c (authenticate_mic_off b) 16).
  { apply (agree_sub b c _ _ _ A); intros k Hk. do 9 right. exact Hk. }
  assert (V : opt_version_ok b (u32_at b 60) 64 = opt_version_ok c (u32_at b 60) 64 /\ opt_version_at b (u32_at b 60) 64 = opt_version_at c (u32_at b 60) 64)
    by (apply (agree_version b c _ _ _ A); unfold authenticate_used; tauto).
  destruct V as [V1 V2].
  assert (L1 : forall v1, lm_field b 12 v1 = lm_field c 12 v1) by (intros v1; apply (agree_lm b c _ _ _ A); unfold authenticate_used; tauto).
  assert (N1 : nt_field cfg b 20 = nt_field cfg c 20) by (apply (agree_nt b c _ _ _ A); unfold authenticate_used; tauto).
  assert (D1 : unicode_field b 28 = unicode_field c 28) by (apply (agree_unicode b c _ _ A); unfold authenticate_used; tauto).
  assert (U1 : unicode_field b 36 = unicode_field c 36) by (apply (agree_unicode b c _ _ A); unfold authenticate_used; tauto).
  assert (W1 : unicode_field b 44 = unicode_field c 44) by (apply (agree_unicode b c _ _ A); unfold authenticate_used; tauto).
  assert (K1 : key_field_res b 52 (N.testbit (u32_at b 60) 30) = key_field_res c 52 (N.testbit (u32_at b 60) 30))
    by (apply (agree_key b c _ _ _ A); unfold authenticate_used; tauto).
  rewrite V1, V2, L1, N1, D1, U1, W1, K1, K, O, L, S, T, F. reflexivity.
Qed.
(** "Different bytes decode differently" is false of each decoder. *)
Lemma C91_one_encoding_refuted_lem :
  ~ (forall cfg b c n, is_bytes b -> is_bytes c -> negotiate_de cfg b = POk [] n -> negotiate_de cfg c = POk [] n -> b = c)
  /\ ~ (forall cfg b c n, is_bytes b -> is_bytes c -> challenge_de cfg b = POk [] n -> challenge_de cfg c = POk [] n -> b = c)
  /\ ~ (forall cfg b c n, is_bytes b -> is_bytes c -> authenticate_de cfg b = POk [] n -> authenticate_de cfg c = POk [] n -> b = c).
Proof.
  assert (B : forall l, forallb (fun x => x <? 256) l = true -> is_bytes l).
  { intros l H. apply Forall_forall. rewrite forallb_forall in H. intros x Hx. specialize (H x Hx). unfold is_u8. lia. }
  split; [|split]; intros H.
  - specialize (H cfg_debug (negotiate_bytes sample_negotiate) (with_byte (negotiate_bytes sample_negotiate) 18 77) sample_negotiate).
    assert (X : negotiate_bytes sample_negotiate = with_byte (negotiate_bytes sample_negotiate) 18 77)
      by (apply H; [apply B| apply B| |]; vm_compute; reflexivity).
    vm_compute in X. discriminate X.
  - specialize (H cfg_debug (challenge_bytes cfg_debug sample_challenge) (with_byte (challenge_bytes cfg_debug sample_challenge) 32 77) sample_challenge).
    assert (X : challenge_bytes cfg_debug sample_challenge = with_byte (challenge_bytes cfg_debug sample_challenge) 32 77)
      by (apply H; [apply B| apply B| |]; vm_compute; reflexivity).
    vm_compute in X. discriminate X.
  - specialize (H cfg_debug (authenticate_bytes cfg_debug sample_authenticate) (with_byte (authenticate_bytes cfg_debug sample_authenticate) 14 77)
      (with_exported_key sample_authenticate None)).
    assert (X : authenticate_bytes cfg_debug sample_authenticate = with_byte (authenticate_bytes cfg_debug sample_authenticate) 14 77)
      by (apply H; [apply B| apply B| |]; vm_compute; reflexivity).
    vm_compute in X. discriminate X.
Qed.
(** In three messages, the positions where adding 1 to the byte changes nothing: maximal
    lengths, reserved bytes, and the lengths of fields whose last bytes are not read. *)
Example C91_ex_lem :
  ignored_positions (same_result negotiate_bytes) (negotiate_de cfg_debug) (negotiate_bytes sample_negotiate)
    = [18; 19; 26; 27]
  /\ ignored_positions (same_result (challenge_bytes cfg_debug)) (challenge_de cfg_debug) (challenge_bytes cfg_debug sample_challenge)
    = [12; 14; 15; 32; 33; 34; 35; 36; 37; 38; 39; 42; 43]
  /\ ignored_positions (same_result (authenticate_bytes cfg_debug)) (authenticate_de cfg_debug) (authenticate_bytes cfg_debug sample_authenticate)
    = [12; 14; 15; 20; 22; 23; 28; 30; 31; 36; 38; 39; 44; 46; 47; 54; 55]
  /\ agree_at (negotiate_used (negotiate_bytes sample_negotiate)) (negotiate_bytes sample_negotiate)
       (with_byte (negotiate_bytes sample_negotiate) 18 77).
Proof.
  split; [vm_compute; reflexivity|]. split; [vm_compute; reflexivity|]. split; [vm_compute; reflexivity|].
  split; [vm_compute; reflexivity|]. intros i Hi.
  assert (N1 : i <> 18).
  { intros ->. unfold negotiate_used, field_used, version_used in Hi. 
    assert (F16 : 32 <= field_off (negotiate_bytes sample_negotiate) 16) by (vm_compute; discriminate).
    assert (F24 : 32 <= field_off (negotiate_bytes sample_negotiate) 24) by (vm_compute; discriminate). lia. }
  unfold byte_at, with_byte.
  change (sub (negotiate_bytes sample_negotiate) 0 18) with (firstn 18 (negotiate_bytes sample_negotiate)).
  set (b := negotiate_bytes sample_negotiate) in *.
  assert (L : (18 < length b)%nat) by (vm_compute; lia). clearbody b. clear Hi.
  destruct (N.lt_ge_cases i 18).
  - rewrite <- (firstn_skipn 18 b) at 1. rewrite !app_nth1 by (rewrite firstn_length; lia). reflexivity.
  - rewrite app_nth2, firstn_length, app_nth2 by (rewrite ?firstn_length; cbn [length]; lia). cbn [length].
    rewrite nth_skipn. f_equal. lia.
Qed.
