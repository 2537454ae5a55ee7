(** Facts about what an observer of NTLMv1 replies can do. *)
From Coq Require Import ZifyBool ZifyNat ZifyN.
From Verif Require Import Base Nom Unicode Wire Structures Prims Messages Crypto Client Spec SpecBuild SpecCrypto SpecClient SpecServer SpecParts Lib Parse Encode Decode RoundTrip Samples FactsEncode FactsDecode FactsBuild DesKey RealPrims FactsCrypto SamplesClient History Reply FactsClient FactsReply.

Ltac Zify.zify_post_hook ::= Z.div_mod_to_equations.

(** ** C95 *)
Lemma sub_head (x y : bytes) n : N.to_nat n = length x -> sub (x ++ y) 0 n = x.
Proof. intros H. unfold sub. cbn [N.to_nat skipn]. rewrite H. now apply firstn_app_exact. Qed.
Lemma sub_tail (x y : bytes) i n : N.to_nat i = length x -> sub (x ++ y) i n = sub y 0 n.
Proof. intros H. unfold sub. rewrite H, skipn_app_exact by reflexivity. reflexivity. Qed.
Lemma sub_later (x y : bytes) i j n : N.to_nat i = (length x + N.to_nat j)%nat -> sub (x ++ y) i n = sub y j n.
Proof. intros H. unfold sub. rewrite H, <- skipn_skipn, skipn_app_exact by reflexivity. reflexivity. Qed.
Lemma sub_whole (x : bytes) n : N.to_nat n = length x -> sub x 0 n = x.
Proof. intros H. unfold sub. cbn [N.to_nat skipn]. rewrite H. apply firstn_all. Qed.
Lemma sub_split (x : bytes) i n m k : k = i + n -> sub x i (n + m) = sub x i n ++ sub x k m.
Proof.
  intros ->. unfold sub. rewrite !N2Nat.inj_add.
  rewrite <- skipn_skipn. set (y := skipn (N.to_nat i) x).
  rewrite <- (firstn_skipn (N.to_nat n) (firstn (N.to_nat n + N.to_nat m) y)) at 1.
  rewrite firstn_firstn, Nat.min_l by lia. rewrite skipn_firstn_comm. do 2 f_equal. lia.
Qed.
(** The thirds of the NT response. *)
Lemma observed cfg P e level user dom pw ch r b : level <= 2 -> host_le cfg = true ->
  replies cfg P e level user dom pw ch r b ->
  let h := NTOWFv1 P pw in let p := observed_plain P ch b in
  prims_ok P /\ is_buffer 16 h /\ length p = 8%nat
  /\ field_data b 20 = DES P (sub h 0 7) p ++ DES P (sub h 7 7) p ++ DES P (sub h 14 2 ++ zeros 5) p
  /\ length (DES P (sub h 0 7) p) = 8%nat /\ length (DES P (sub h 7 7) p) = 8%nat
  /\ length (DES P (sub h 14 2 ++ zeros 5) p) = 8%nat.
Proof.
  intros L Hle H h p. destruct (replies_workstation _ _ _ _ _ _ _ _ _ _ H) as [ws W]. destruct (replies_lm _ _ _ _ _ _ _ _ _ _ H) as [klm Hk].
  destruct (C32_ntlmv1_response_lem cfg P e level user dom pw ws ch r b klm Hle L W Hk H) as (R1 & R2 & _).
  destruct (replies_v1 _ _ _ _ _ _ _ _ _ _ _ _ H L W Hk) as (HP & Hv & Hr & _).
  assert (Hh : is_buffer 16 h) by now apply md4_buffer.
  assert (EP : field_data b 20 = DESL P h p /\ length p = 8%nat).
  { destruct Hv as (_ & _ & [Hs _] & _). destruct Hr as [[Hc _] _].
    rewrite R2. unfold p, observed_plain, v1_plain, v1_nt_response. rewrite R1. unfold v1_lm_response.
    destruct (ESS (ch_flags ch)); [|split; [reflexivity|exact Hs]].
    rewrite sub_head by (rewrite Hc; reflexivity). split; [reflexivity|].
    unfold sub. cbn [N.to_nat skipn]. rewrite firstn_length, (ok_md5_len _ HP). reflexivity. }
  destruct EP as [E Hp]. split; [exact HP|]. split; [exact Hh|]. split; [exact Hp|]. split; [exact E|].
  destruct Hh as [Lh Bh].
  assert (K : forall i n, is_bytes (sub h i n)) by (intros i n; unfold sub; apply Forall_firstn, Forall_skipn; exact Bh).
  assert (B7 : is_buffer 7 (sub h 0 7)) by (split; [unfold sub; rewrite firstn_length, skipn_length, Lh; reflexivity|apply K]).
  assert (B8 : is_buffer 7 (sub h 7 7)) by (split; [unfold sub; rewrite firstn_length, skipn_length, Lh; reflexivity|apply K]).
  assert (B9 : is_buffer 7 (sub h 14 2 ++ zeros 5)).
  { split; [rewrite app_length; unfold sub; rewrite firstn_length, skipn_length, Lh; reflexivity|].
    apply Forall_app. split; [apply K|]. apply zeros_buffer. }
  split; [|split]; now apply DES_buffer.
Qed.

(** Each third of the NT response can be attacked by itself: the part of the
    NT hash that belongs to it passes the observer's test, ... *)
Lemma C95_parts_lem : forall cfg P e level user dom pw ch r b, level <= 2 -> host_le cfg = true ->
  replies cfg P e level user dom pw ch r b ->
  let h := NTOWFv1 P pw in
  part_test P ch b 0 (sub h 0 7) = true /\ part_test P ch b 1 (sub h 7 7) = true
  /\ part_test P ch b 2 (sub h 14 2 ++ zeros 5) = true.
Proof.
  intros cfg P e level user dom pw ch r b L Hle H h.
  destruct (observed _ _ _ _ _ _ _ _ _ _ L Hle H) as (_ & _ & _ & E & L0 & L1 & L2). fold h in E, L0, L1, L2.
  unfold part_test. rewrite E. split; [|split]; apply beq_bytes_eq.
  - apply sub_head. rewrite L0. reflexivity.
  - rewrite sub_tail by (rewrite L0; reflexivity). apply sub_head. rewrite L1. reflexivity.
  - rewrite app_assoc, sub_tail by (rewrite app_length, L0, L1; reflexivity). apply sub_whole. rewrite L2. reflexivity.
Qed.
(** ... and any three parts that pass, found separately, are a hash that gives
    the same NT response. *)
Lemma C95_parts_suffice_lem : forall cfg P e level user dom pw ch r b k0 k1 k2, level <= 2 -> host_le cfg = true ->
  replies cfg P e level user dom pw ch r b ->
  length k0 = 7%nat -> length k1 = 7%nat -> length k2 = 2%nat ->
  part_test P ch b 0 k0 = true -> part_test P ch b 1 k1 = true -> part_test P ch b 2 (k2 ++ zeros 5) = true ->
  v1_nt_response P (ch_flags ch) (k0 ++ k1 ++ k2) (ch_server_challenge ch) (sub (field_data b 12) 0 8) = field_data b 20.
Proof.
  intros cfg P e level user dom pw ch r b k0 k1 k2 L Hle H N0 N1 N2 T0 T1 T2.
  destruct (observed _ _ _ _ _ _ _ _ _ _ L Hle H) as (_ & _ & _ & E & L0 & L1 & L2).
  apply beq_bytes_eq in T0, T1, T2.
  assert (LF : length (field_data b 20) = 24%nat) by (rewrite E, !app_length, L0, L1, L2; reflexivity).
  transitivity (DESL P (k0 ++ k1 ++ k2) (observed_plain P ch b)).
  - unfold observed_plain, v1_plain, v1_nt_response. destruct (ESS (ch_flags ch)); reflexivity.
  - unfold DESL. rewrite sub_head by (rewrite N0; reflexivity). rewrite (sub_tail k0) by (rewrite N0; reflexivity).
    rewrite sub_head by (rewrite N1; reflexivity). 
    replace (sub (k0 ++ k1 ++ k2) 14 2) with k2
      by (rewrite app_assoc, (sub_tail (k0 ++ k1)) by (rewrite app_length, N0, N1; reflexivity); symmetry; apply sub_whole; rewrite N2; reflexivity).
    rewrite <- T0, <- T1, <- T2. change (8 * 0) with 0. change (8 * 1) with 8. change (8 * 2) with 16.
    rewrite <- sub_split by reflexivity. rewrite <- sub_split by reflexivity. apply sub_whole. rewrite LF. reflexivity.
Qed.
(** For the last two bytes of the NT hash 65536 tries are enough. *)
Lemma C95_last_two_lem : forall cfg P e level user dom pw ch r b, level <= 2 -> host_le cfg = true ->
  replies cfg P e level user dom pw ch r b ->
  len byte_pairs = 65536
  /\ In (byte_at (NTOWFv1 P pw) 14, byte_at (NTOWFv1 P pw) 15) (last_two P ch b).
Proof.
  intros cfg P e level user dom pw ch r b L Hle H. split; [vm_compute; reflexivity|].
  destruct (observed _ _ _ _ _ _ _ _ _ _ L Hle H) as (_ & Hh & _).
  destruct (C95_parts_lem _ _ _ _ _ _ _ _ _ _ L Hle H) as (_ & _ & T).
  set (h := NTOWFv1 P pw) in *. apply filter_In. cbn [fst snd].
  assert (E : sub h 14 2 ++ zeros 5 = [byte_at h 14; byte_at h 15; 0; 0; 0; 0; 0]).
  { destruct Hh as [Lh _]. do 17 (destruct h as [|? h]; try discriminate Lh). reflexivity. }
  split; [|rewrite <- E; exact T].
  assert (B : forall i, In (byte_at h i) all_bytes).
  { intros i. assert (X : byte_at h i < 256).
    { unfold byte_at. destruct (Nat.lt_ge_cases (N.to_nat i) (length h)) as [D|D].
      - destruct Hh as [_ Bh]. exact (proj1 (Forall_forall _ _) Bh _ (nth_In _ _ D)).
      - rewrite nth_overflow by exact D. lia. }
    unfold all_bytes. apply in_map_iff. exists (N.to_nat (byte_at h i)). split; [lia|]. apply in_seq. lia. }
  apply in_prod; apply B.
Qed.
(** The LM response tells that a password is short: at level 0, without
    EXTENDED_SESSIONSECURITY, its last third is the same for all ASCII
    passwords of at most 7 characters, whoever they belong to. *)
Lemma C95_short_passwords_lem : forall cfg P e user dom pw ch r b cfg' e' user' dom' pw' ch' r' b',
  replies cfg P e 0 user dom pw ch r b -> replies cfg' P e' 0 user' dom' pw' ch' r' b' ->
  host_le cfg = true -> host_le cfg' = true -> ESS (ch_flags ch) = false -> ESS (ch_flags ch') = false ->
  ch_server_challenge ch = ch_server_challenge ch' ->
  is_ascii pw -> is_ascii pw' -> len pw <= 7 -> len pw' <= 7 ->
  sub (field_data b 12) 16 8 = sub (field_data b' 12) 16 8.
Proof.
  assert (K : forall cfg P e user dom pw ch r b, replies cfg P e 0 user dom pw ch r b -> host_le cfg = true ->
    ESS (ch_flags ch) = false -> is_ascii pw -> len pw <= 7 ->
    sub (field_data b 12) 16 8 = DES P (sub (DES P (zeros 7) MAGIC) 6 2 ++ zeros 5) (ch_server_challenge ch)).
  { intros cfg P e user dom pw ch r b H Hle X A Ln.
    destruct (replies_workstation _ _ _ _ _ _ _ _ _ _ H) as [ws W]. destruct (replies_lm _ _ _ _ _ _ _ _ _ _ H) as [klm Hk].
    destruct (C32_ntlmv1_response_lem cfg P e 0 user dom pw ws ch r b klm Hle ltac:(lia) W Hk H) as (R1 & _).
    destruct (replies_v1 _ _ _ _ _ _ _ _ _ _ _ _ H ltac:(lia) W Hk) as (HP & Hv & Hr & _).
    rewrite (C34_lm_hash_lem P pw HP A) in Hk. apply val_inj in Hk. subst klm.
    rewrite R1. unfold v1_lm_response. rewrite X. cbn [N.leb N.compare]. unfold DESL.
    assert (O : length (oem14 pw) = 14%nat).
    { unfold oem14. rewrite firstn_length, app_length, map_length. change (length (zeros 14)) with 14%nat. lia. }
    assert (OB : is_bytes (oem14 pw)).
    { unfold oem14. apply Forall_firstn, Forall_app. split; [|apply zeros_buffer].
      apply Forall_map. eapply Forall_impl; [|exact A]. cbn beta. intros c Hc. unfold upper_ascii, is_u8. destruct (_ && _); lia. }
    assert (O2 : sub (oem14 pw) 7 7 = zeros 7).
    { unfold oem14, sub. cbn [N.to_nat Pos.to_nat Pos.iter_op Nat.add]. unfold len in Ln.
      rewrite skipn_firstn_comm, firstn_firstn, skipn_app, map_length.
      rewrite skipn_all2 by (rewrite map_length; lia). cbn [app]. unfold zeros.
      destruct pw as [|? [|? [|? [|? [|? [|? [|? [|? ?]]]]]]]]; cbn [length] in *; try lia; reflexivity. }
    assert (B0 : is_buffer 7 (sub (oem14 pw) 0 7)).
    { split; [unfold sub; rewrite firstn_length, skipn_length, O; reflexivity|]. unfold sub. apply Forall_firstn, Forall_skipn, OB. }
    assert (M0 : length (DES P (sub (oem14 pw) 0 7) MAGIC) = 8%nat) by now apply DES_buffer.
    assert (M1 : is_buffer 8 (DES P (zeros 7) MAGIC)) by (apply DES_buffer; [exact HP|apply zeros_buffer|reflexivity]).
    set (k := LMOWFv1 P pw).
    assert (EK : k = DES P (sub (oem14 pw) 0 7) MAGIC ++ DES P (zeros 7) MAGIC) by (unfold k, LMOWFv1; now rewrite O2).
    assert (Kb : is_buffer 16 k).
    { rewrite EK. split; [rewrite app_length, M0, (proj1 M1); reflexivity|]. apply Forall_app. split; [|apply M1].
      apply DES_buffer; [exact HP|exact B0|reflexivity]. }
    assert (S2 : sub k 14 2 = sub (DES P (zeros 7) MAGIC) 6 2).
    { rewrite EK. apply sub_later. rewrite M0. reflexivity. }
    destruct Hv as (_ & _ & [Hs _] & _). destruct Kb as [Lk Bk].
    assert (KB : forall i n, is_bytes (sub k i n)) by (intros i n; unfold sub; apply Forall_firstn, Forall_skipn; exact Bk).
    assert (D0 : length (DES P (sub k 0 7) (ch_server_challenge ch)) = 8%nat).
    { apply DES_buffer; [exact HP| |exact Hs]. split; [unfold sub; rewrite firstn_length, skipn_length, Lk; reflexivity|apply KB]. }
    assert (D1 : length (DES P (sub k 7 7) (ch_server_challenge ch)) = 8%nat).
    { apply DES_buffer; [exact HP| |exact Hs]. split; [unfold sub; rewrite firstn_length, skipn_length, Lk; reflexivity|apply KB]. }
    rewrite app_assoc, sub_tail by (rewrite app_length, D0, D1; reflexivity). rewrite S2. apply sub_whole.
    assert (D2 : is_buffer 8 (DES P (sub (DES P (zeros 7) MAGIC) 6 2 ++ zeros 5) (ch_server_challenge ch))).
    { apply DES_buffer; [exact HP| |exact Hs]. split.
      - rewrite app_length. unfold sub. rewrite firstn_length, skipn_length, (proj1 M1). reflexivity.
      - apply Forall_app. split; [unfold sub; apply Forall_firstn, Forall_skipn, M1|apply zeros_buffer]. }
    rewrite (proj1 D2). reflexivity. }
  intros cfg P e user dom pw ch r b cfg' e' user' dom' pw' ch' r' b' H H' Hle Hle' X X' ES A A' Ln Ln'.
  rewrite (K _ _ _ _ _ _ _ _ _ H Hle X A Ln), (K _ _ _ _ _ _ _ _ _ H' Hle' X' A' Ln'), ES. reflexivity.
Qed.
(** Two users with passwords of 4 and 6 characters; the parts of a reply, right and wrong. *)
Example C95_ex_lem :
  (exists b, replies cfg_debug real_prims host_env 0 str_User str_Domain str_User old_challenge sample_entropy b
     /\ sub (field_data b 12) 16 8 <> sub (field_data (sample_reply 0 old_challenge) 12) 16 8)
  /\ (exists b, replies cfg_debug real_prims host_env 0 str_Domain str_Domain str_Domain old_challenge sample_entropy b)
  /\ replies cfg_debug real_prims host_env 0 str_User str_Domain str_Password old_challenge sample_entropy (sample_reply 0 old_challenge)
  /\ ESS (ch_flags old_challenge) = false /\ is_ascii str_User /\ is_ascii str_Domain /\ len str_User = 4 /\ len str_Domain = 6
  /\ part_test real_prims old_challenge (sample_reply 0 old_challenge) 2 [0; 0; 0; 0; 0; 0; 0] = false
  /\ part_test real_prims sample_challenge (sample_reply 2 sample_challenge) 0 (sub (NTOWFv1 real_prims str_Password) 0 7) = true.
Proof.
  split; [|split; [|split; [|split; [|split; [|split; [|split; [|split; [|split]]]]]]]].
  - eexists. split; [exists str_target; eexists; exists (sample_history old_challenge); split; [|split; [exact old_valid|split; [apply sample_entropy_ok|split; [apply sample_accepts|]]]]|].
    + split; [exact real_prims_ok|]. split; [closed_valid|]. split; [closed_valid|]. split; [closed_valid|].
      split; [closed_valid|]. vm_compute. reflexivity.
    + vm_compute. reflexivity.
    + vm_compute. discriminate.
  - eexists. exists str_target; eexists; exists (sample_history old_challenge). split; [|split; [exact old_valid|split; [apply sample_entropy_ok|split; [apply sample_accepts|]]]].
    + split; [exact real_prims_ok|]. split; [closed_valid|]. split; [closed_valid|]. split; [closed_valid|].
      split; [closed_valid|]. vm_compute. reflexivity.
    + vm_compute. reflexivity.
  - apply sample_replies; [exact old_valid|vm_compute; reflexivity].
  - reflexivity.
  - repeat constructor.
  - repeat constructor.
  - reflexivity.
  - reflexivity.
  - vm_compute. reflexivity.
  - vm_compute. reflexivity.
Qed.
