(** What the derived [==] compares. *)
From Coq Require Import ZifyBool ZifyNat ZifyN.
From Verif Require Import Base Nom Unicode Wire Structures Prims Messages Crypto Client Spec SpecBuild SpecCrypto SpecClient SpecTrace Lib Encode Decode RoundTrip Parse Inject Samples FactsEncode FactsDecode FactsBuild DesKey RealPrims FactsCrypto SamplesClient History Reply FactsClient FactsReply FactsInject Equal.

Ltac Zify.zify_post_hook ::= Z.div_mod_to_equations.

(** [eq] decides equality of the values that satisfy [P]. *)
Definition decides {A : Type} (P : A -> Prop) (eq : A -> A -> bool) : Prop :=
  forall a b, P a -> P b -> (eq a b = true <-> a = b).

Lemma slice_decides {A} (P : A -> Prop) eq : decides P eq -> decides (Forall P) (slice_eq eq).
Proof.
  intros D a. unfold slice_eq. induction a as [|x a IH]; intros [|y b] Ha Hb; cbn [length Nat.eqb all2 andb]; try (split; discriminate); [split; reflexivity|].
  apply Forall_cons_iff in Ha as [Hx Ha]. apply Forall_cons_iff in Hb as [Hy Hb].
  specialize (IH b Ha Hb). specialize (D x y Hx Hy). rewrite !andb_true_iff in *. split.
  - intros (L & E & R). apply D in E. f_equal; [exact E|]. apply IH. now split.
  - intros E. injection E as -> ->. destruct (proj2 IH eq_refl) as [L R]. split; [exact L|]. split; [now apply D|exact R].
Qed.
Lemma N_decides (P : N -> Prop) : decides P N.eqb.
Proof. intros a b _ _. apply N.eqb_eq. Qed.
Lemma buf_eq_iff a b : buf_eq a b = true <-> a = b.
Proof. apply (slice_decides (fun _ => True)); [apply N_decides|apply Forall_forall; trivial|apply Forall_forall; trivial]. Qed.
Lemma string_decides : decides is_string string_eq.
Proof.
  intros a b Ha Hb. unfold string_eq. rewrite buf_eq_iff. split; [now apply utf8_inj|congruence].
Qed.
Lemma option_decides {A} (P : A -> Prop) eq : decides P eq -> decides (valid_opt P) (option_eq eq).
Proof.
  intros D [a|] [b|] Ha Hb; cbn [option_eq valid_opt] in *; try (split; [discriminate|discriminate]); [|split; reflexivity].
  rewrite (D a b Ha Hb). split; [now intros ->|congruence].
Qed.
Lemma buf_decides P : decides P buf_eq.
Proof. intros a b _ _. apply buf_eq_iff. Qed.
Lemma flags_decides : decides valid_flags flags_eq.
Proof. intros a b _ _. apply N.eqb_eq. Qed.

Ltac conj_eq := rewrite ?andb_true_iff, ?N.eqb_eq, ?buf_eq_iff.
Lemma field_decides : decides (fun _ => True) field_eq.
Proof. intros [a b c] [a' b' c'] _ _. unfold field_eq. cbn. conj_eq. split; [now intros [[-> ->] ->]|now intros [= -> -> ->]]. Qed.
Lemma version_decides : decides valid_version version_eq.
Proof. intros [a b c d] [a' b' c' d'] _ _. unfold version_eq. cbn. conj_eq. split; [now intros [[[-> ->] ->] ->]|now intros [= -> -> -> ->]]. Qed.
Lemma filetime_decides : decides valid_filetime filetime_eq.
Proof. intros [a b] [a' b'] _ _. unfold filetime_eq. cbn. conj_eq. split; [now intros [-> ->]|now intros [= -> ->]]. Qed.
Lemma single_host_decides : decides valid_single_host single_host_eq.
Proof. intros [a b c d] [a' b' c' d'] _ _. unfold single_host_eq. cbn. conj_eq. split; [now intros [[[-> ->] ->] ->]|now intros [= -> -> -> ->]]. Qed.
Lemma signature_decides : decides (fun _ => True) signature_eq.
Proof. intros [a b c] [a' b' c'] _ _. unfold signature_eq. cbn. conj_eq. split; [now intros [[-> ->] ->]|now intros [= -> -> ->]]. Qed.
Lemma av_id_decides : decides (fun _ => True) av_id_eq.
Proof. intros [] [] _ _; split; intros E; try reflexivity; discriminate E. Qed.
Lemma av_flags_decides : decides (fun _ => True) av_flags_eq.
Proof.
  intros [a b c] [a' b' c'] _ _. unfold av_flags_eq. cbn. rewrite !andb_true_iff, !eqb_true_iff.
  split; [now intros [[-> ->] ->]|now intros [= -> -> ->]].
Qed.
Lemma av_pair_decides : decides valid_av_pair av_pair_eq.
Proof.
  intros [] [] Ha Hb; cbn [av_pair_eq valid_av_pair] in *; try (split; discriminate); [split; reflexivity|..];
    first [rewrite (string_decides _ _ Ha Hb)|rewrite (av_flags_decides _ _ I I)|rewrite (filetime_decides _ _ Ha Hb)
          |rewrite (single_host_decides _ _ Ha Hb)|rewrite buf_eq_iff];
    (split; [now intros ->|now intros [= ->]]).
Qed.
Lemma lm_decides : decides valid_lm lm_challenge_eq.
Proof.
  intros [x|x c] [y|y d] _ _; cbn [lm_challenge_eq]; try (split; discriminate); conj_eq;
    [split; [now intros ->|now intros [= ->]]|split; [now intros [-> ->]|now intros [= -> ->]]].
Qed.
Definition valid_ntv2 (c : ntv2_challenge) : Prop := valid_nt (NtV2 c).
Lemma ntv2_decides : decides valid_ntv2 ntv2_eq.
Proof.
  intros [t c l] [t' c' l'] (H1 & H2 & H3) (G1 & G2 & G3). unfold ntv2_eq. cbn [nt_timestamp nt_client_challenge nt_target_infos] in *.
  conj_eq. rewrite (filetime_decides _ _ H1 G1), (slice_decides _ _ av_pair_decides _ _ H3 G3).
  split; [now intros [[-> ->] ->]|now intros [= -> -> ->]].
Qed.
Lemma nt_decides : decides valid_nt nt_challenge_eq.
Proof.
  intros [x|c] [y|d] Ha Hb; cbn [nt_challenge_eq]; try (split; discriminate).
  - rewrite buf_eq_iff. split; [now intros ->|now intros [= ->]].
  - rewrite (ntv2_decides _ _ Ha Hb). split; [now intros ->|now intros [= ->]].
Qed.
Lemma negotiate_decides : decides valid_negotiate negotiate_eq.
Proof.
  intros [f d w v] [f' d' w' v'] (H1 & H2 & H3 & H4) (G1 & G2 & G3 & G4). unfold negotiate_eq. cbn [n_flags n_domain n_workstation n_version] in *.
  rewrite !andb_true_iff, (flags_decides _ _ H1 G1), (option_decides _ _ string_decides _ _ H2 G2), (option_decides _ _ string_decides _ _ H3 G3),
    (option_decides _ _ version_decides _ _ H4 G4).
  split; [now intros [[[-> ->] ->] ->]|now intros [= -> -> -> ->]].
Qed.
Lemma challenge_decides : decides valid_challenge challenge_eq.
Proof.
  intros [n f s l v] [n' f' s' l' v'] (H1 & H2 & H3 & H4 & H5) (G1 & G2 & G3 & G4 & G5). unfold challenge_eq.
  cbn [ch_target_name ch_flags ch_server_challenge ch_target_infos ch_version] in *.
  rewrite !andb_true_iff, (option_decides _ _ string_decides _ _ H1 G1), (flags_decides _ _ H2 G2), buf_eq_iff,
    (slice_decides _ _ av_pair_decides _ _ H4 G4), (option_decides _ _ version_decides _ _ H5 G5).
  split; [now intros [[[[-> ->] ->] ->] ->]|now intros [= -> -> -> -> ->]].
Qed.
Lemma authenticate_decides : decides valid_authenticate authenticate_eq.
Proof.
  intros [a1 a2 a3 a4 a5 a6 a7 a8 a9 a10] [b1 b2 b3 b4 b5 b6 b7 b8 b9 b10] (H1 & H2 & H3 & H4 & H5 & H6 & H7 & H8 & H9 & H10) (G1 & G2 & G3 & G4 & G5 & G6 & G7 & G8 & G9 & G10).
  unfold authenticate_eq. cbn [a_lm a_nt a_domain a_user a_workstation a_session_key a_flags a_version a_mic a_exported_key] in *.
  rewrite !andb_true_iff, (option_decides _ _ lm_decides _ _ H1 G1), (option_decides _ _ nt_decides _ _ H2 G2),
    (option_decides _ _ string_decides _ _ H3 G3), (option_decides _ _ string_decides _ _ H4 G4), (option_decides _ _ string_decides _ _ H5 G5),
    (option_decides _ _ (buf_decides _) _ _ H6 G6), (flags_decides _ _ H7 G7), (option_decides _ _ version_decides _ _ H8 G8), buf_eq_iff,
    (option_decides _ _ (buf_decides _) _ _ H10 G10).
  split.
  - intros [[[[[[[[[-> ->] ->] ->] ->] ->] ->] ->] ->] ->]. reflexivity.
  - now intros [= -> -> -> -> -> -> -> -> -> ->].
Qed.

(** ** C123 *)
(** Two messages are [==] exactly if they are the same in all their fields. *)
Lemma C123_messages_lem :
  (forall a b, valid_negotiate a -> valid_negotiate b -> (negotiate_eq a b = true <-> a = b))
  /\ (forall a b, valid_challenge a -> valid_challenge b -> (challenge_eq a b = true <-> a = b))
  /\ (forall a b, valid_authenticate a -> valid_authenticate b -> (authenticate_eq a b = true <-> a = b)).
Proof. split; [exact negotiate_decides|]. split; [exact challenge_decides|exact authenticate_decides]. Qed.
(** So are structures. *)
Lemma C123_structures_lem :
  (forall a b, valid_av_pair a -> valid_av_pair b -> (av_pair_eq a b = true <-> a = b))
  /\ (forall a b, valid_lm a -> valid_lm b -> (lm_challenge_eq a b = true <-> a = b))
  /\ (forall a b, valid_nt a -> valid_nt b -> (nt_challenge_eq a b = true <-> a = b))
  /\ (forall a b, is_string a -> is_string b -> (string_eq a b = true <-> a = b))
  /\ (forall a b, version_eq a b = true <-> a = b) /\ (forall a b, filetime_eq a b = true <-> a = b)
  /\ (forall a b, single_host_eq a b = true <-> a = b) /\ (forall a b, signature_eq a b = true <-> a = b)
  /\ (forall a b, field_eq a b = true <-> a = b) /\ (forall a b, av_id_eq a b = true <-> a = b)
  /\ (forall a b, av_flags_eq a b = true <-> a = b) /\ (forall a b, flags_eq a b = true <-> a = b)
  /\ (forall a b, buf_eq a b = true <-> a = b).
Proof.
  split; [exact av_pair_decides|]. split; [exact lm_decides|]. split; [exact nt_decides|]. split; [exact string_decides|].
  split. { intros [a b c d] [a' b' c' d']. unfold version_eq. cbn. conj_eq. split; [now intros [[[-> ->] ->] ->]|now intros [= -> -> -> ->]]. }
  split. { intros [a b] [a' b']. unfold filetime_eq. cbn. conj_eq. split; [now intros [-> ->]|now intros [= -> ->]]. }
  split. { intros [a b c d] [a' b' c' d']. unfold single_host_eq. cbn. conj_eq. split; [now intros [[[-> ->] ->] ->]|now intros [= -> -> -> ->]]. }
  split; [intros a b; now apply signature_decides|]. split; [intros a b; now apply field_decides|].
  split; [intros a b; now apply av_id_decides|]. split; [intros a b; now apply av_flags_decides|].
  split; [intros a b; apply N.eqb_eq|]. intros a b. apply buf_eq_iff.
Qed.
(** NEGOTIATE and CHALLENGE messages are [==] exactly if they are written as the same bytes. *)
Lemma C123_bytes_lem : forall cfg,
  (forall n m b b', valid_negotiate n -> valid_negotiate m ->
     serialize cfg (negotiate_ser n) = Val b -> serialize cfg (negotiate_ser m) = Val b' -> (negotiate_eq n m = true <-> b = b'))
  /\ (forall c d b b', valid_challenge c -> valid_challenge d ->
     serialize cfg (challenge_ser cfg c) = Val b -> serialize cfg (challenge_ser cfg d) = Val b' -> (challenge_eq c d = true <-> b = b')).
Proof.
  intros cfg. destruct (C61_encoders_injective_lem cfg) as (I1 & I2 & _). split.
  - intros n m b b' V W S T. rewrite (negotiate_decides _ _ V W). split.
    + intros ->. rewrite S in T. now apply val_inj in T.
    + intros <-. eapply I1; eassumption.
  - intros n m b b' V W S T. rewrite (challenge_decides _ _ V W). split.
    + intros ->. rewrite S in T. now apply val_inj in T.
    + intros <-. eapply I2; eassumption.
Qed.
(** An AUTHENTICATE that is written and read again should be [==] to the first: it is so
    exactly if it holds no exported session key. *)
Lemma C123_authenticate_lem : forall cfg a, host_le cfg = true -> valid_authenticate a -> carried_authenticate cfg a ->
  exists b a', serialize cfg (authenticate_ser cfg a) = Val b /\ authenticate_de cfg b = POk [] a'
    /\ (authenticate_eq a' a = true <-> a_exported_key a = None).
Proof.
  intros cfg a HLE V C. destruct (C04_authenticate_round_trip_lem cfg a HLE V C) as (b & S & D).
  exists b, (with_exported_key a None). split; [exact S|]. split; [exact D|].
  assert (V' : valid_authenticate (with_exported_key a None)).
  { destruct V as (V1 & V2 & V3 & V4 & V5 & V6 & V7 & V8 & V9 & V10). repeat (split; [assumption|]). exact I. }
  rewrite (authenticate_decides _ _ V' V). split.
  - intros E. now rewrite <- E.
  - intros E. destruct a as [a1 a2 a3 a4 a5 a6 a7 a8 a9 a10]. cbn in E. subst a10. reflexivity.
Qed.
Lemma C123_authenticate_refuted_lem :
  ~ (forall cfg a b a', host_le cfg = true -> valid_authenticate a -> carried_authenticate cfg a ->
      serialize cfg (authenticate_ser cfg a) = Val b -> authenticate_de cfg b = POk [] a' -> authenticate_eq a' a = true).
Proof.
  intros H. destruct C04_ex_lem as (E1 & E2 & E3). destruct (C123_authenticate_lem _ _ E1 E2 E3) as (b & a' & S & D & E).
  specialize (H _ _ _ _ E1 E2 E3 S D). apply E in H. discriminate H.
Qed.
(** Messages that differ in one place only, and that are written as the same bytes. *)
Example C123_ex_lem :
  valid_negotiate sample_negotiate /\ valid_challenge sample_challenge /\ valid_authenticate sample_authenticate
  /\ (exists b, serialize cfg_debug (negotiate_ser sample_negotiate) = Val b) /\ (exists b, serialize cfg_debug (challenge_ser cfg_debug sample_challenge) = Val b)
  /\ carried_authenticate cfg_debug sample_authenticate /\ a_exported_key sample_authenticate <> None
  /\ negotiate_eq sample_negotiate sample_negotiate = true /\ negotiate_eq sample_negotiate negotiate_default = false
  /\ challenge_eq sample_challenge sample_challenge = true
  /\ challenge_eq sample_challenge
       (mkChallenge (ch_target_name sample_challenge) (ch_flags sample_challenge) (ch_server_challenge sample_challenge)
          (ch_target_infos sample_challenge ++ [AvEOL]) (ch_version sample_challenge)) = false
  /\ authenticate_eq sample_authenticate sample_authenticate = true
  /\ authenticate_eq sample_authenticate (with_exported_key sample_authenticate (Some (repeat 8 15 ++ [9]))) = false
  /\ string_eq str_accent [233] = false
  /\ lm_challenge_eq (LmV1 (repeat 3 24)) (LmV2 (repeat 3 16) (repeat 3 8)) = false
  /\ serialize cfg_debug (lm_challenge_ser (LmV1 (repeat 3 24))) = serialize cfg_debug (lm_challenge_ser (LmV2 (repeat 3 16) (repeat 3 8))).
Proof.
  split; [apply C02_ex_lem|]. split; [apply C03_ex_lem|]. split; [apply C04_ex_lem|].
  split; [eexists; vm_compute; reflexivity|]. split; [eexists; vm_compute; reflexivity|]. split; [apply C04_ex_lem|].
  split; [discriminate|]. repeat (split; [vm_compute; reflexivity|]). vm_compute. reflexivity.
Qed.
