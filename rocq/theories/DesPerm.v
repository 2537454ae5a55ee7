(** The DES of RealPrims.v is injective in the block, whatever the key. *)
From Coq Require Import ZifyBool ZifyNat ZifyN.
From Verif Require Import Base Nom Unicode Wire Structures Prims Messages Crypto Client Spec SpecCrypto SpecServer Lib RealPrims.

Lemma xor_bits_length a b : length a = length b -> length (xor_bits a b) = length a.
Proof. revert b; induction a as [|x a IH]; intros [|y b] H; cbn in *; try lia; f_equal; apply IH; lia. Qed.
Lemma xor_bits_inj a b c : length a = length c -> length b = length c -> xor_bits a c = xor_bits b c -> a = b.
Proof.
  revert b c; induction a as [|x a IH]; intros [|y b] [|z c] H1 H2 E; cbn in *; try lia; try reflexivity.
  injection E as E1 E2. f_equal; [destruct x, y, z; try reflexivity; discriminate E1|]. apply (IH b c); [lia..|exact E2].
Qed.
Lemma permute_length t l : length (permute t l) = length t.
Proof. apply map_length. Qed.

Lemma FP_IP l : length l = 64%nat -> permute des_FP (permute des_IP l) = l.
Proof.
  intros H. do 64 (destruct l as [|? l]; [discriminate H|]). destruct l; [|discriminate H]. vm_compute. reflexivity.
Qed.
Lemma IP_FP l : length l = 64%nat -> permute des_IP (permute des_FP l) = l.
Proof.
  intros H. do 64 (destruct l as [|? l]; [discriminate H|]). destruct l; [|discriminate H]. vm_compute. reflexivity.
Qed.

Definition halves (x : list bool * list bool) : Prop := length (fst x) = 32%nat /\ length (snd x) = 32%nat.
Lemma feistel_halves x k : halves x -> halves (des_feistel x k).
Proof.
  destruct x as [l r]. intros [H1 H2]. cbn [fst snd] in *. unfold des_feistel. split; [exact H2|]. cbn [snd].
  rewrite xor_bits_length; [exact H1|]. unfold des_f. now rewrite permute_length.
Qed.
Lemma feistel_inj x y k : halves x -> halves y -> des_feistel x k = des_feistel y k -> x = y.
Proof.
  destruct x as [l r], y as [l' r']. intros [H1 H2] [H3 H4] E. cbn [fst snd] in *. unfold des_feistel in E.
  injection E as E1 E2. subst r'. f_equal. eapply xor_bits_inj; [| |exact E2]; unfold des_f; now rewrite permute_length.
Qed.
Lemma rounds_halves ks x : halves x -> halves (fold_left des_feistel ks x).
Proof. revert x; induction ks as [|k ks IH]; intros x H; [exact H|]. cbn [fold_left]. apply IH, feistel_halves, H. Qed.
Lemma rounds_inj ks x y : halves x -> halves y -> fold_left des_feistel ks x = fold_left des_feistel ks y -> x = y.
Proof.
  revert x y; induction ks as [|k ks IH]; intros x y Hx Hy E; [exact E|]. cbn [fold_left] in E.
  apply IH in E; try now apply feistel_halves. now apply feistel_inj in E.
Qed.

(** Bytes and bits *)
Lemma byte_bits_inj x y : is_u8 x -> is_u8 y -> byte_bits x = byte_bits y -> x = y.
Proof.
  intros Hx Hy E. unfold byte_bits in E. cbn [map] in E. injection E as E7 E6 E5 E4 E3 E2 E1 E0. apply N.bits_inj. intros i.
  destruct (N.lt_ge_cases i 8) as [Hi|Hi].
  - assert (i = 0 \/ i = 1 \/ i = 2 \/ i = 3 \/ i = 4 \/ i = 5 \/ i = 6 \/ i = 7) as D by lia.
    repeat (destruct D as [->|D]; [assumption|]). now subst.
  - assert (forall n, is_u8 n -> N.testbit n i = false) as Z.
    { intros n Hn. destruct (N.eq_dec n 0) as [->|N0]; [apply N.bits_0|]. apply N.bits_above_log2.
      apply N.log2_lt_pow2; [lia|]. unfold is_u8 in Hn. apply N.lt_le_trans with (2 ^ 8); [exact Hn|]. apply N.pow_le_mono_r; lia. }
    now rewrite !Z.
Qed.
Lemma bytes_bits_inj a b : is_bytes a -> is_bytes b -> length a = length b -> flat_map byte_bits a = flat_map byte_bits b -> a = b.
Proof.
  revert b; induction a as [|x a IH]; intros [|y b] Ha Hb L E; try discriminate L; [reflexivity|].
  inversion Ha; inversion Hb; subst. cbn [flat_map] in E.
  assert (byte_bits x = byte_bits y /\ flat_map byte_bits a = flat_map byte_bits b) as [E1 E2].
  { unfold byte_bits at 1 3 in E. cbn [map app] in E. injection E as ? ? ? ? ? ? ? ? E. split; [|exact E]. unfold byte_bits. cbn [map]. congruence. }
  f_equal; [now apply byte_bits_inj|]. apply IH; try assumption. cbn in L. lia.
Qed.
Lemma bytes_bits_length a : length (flat_map byte_bits a) = (8 * length a)%nat.
Proof. induction a as [|x a IH]; [reflexivity|]. cbn [flat_map]. rewrite app_length, IH. cbn [length byte_bits map]. lia. Qed.
Lemma byte_bits_num l : length l = 8%nat -> byte_bits (bits_num l) = l.
Proof.
  intros H. do 8 (destruct l as [|[|] l]; [discriminate H| |]); (destruct l; [|discriminate H]); vm_compute; reflexivity.
Qed.
Lemma bits_num_inj l m : length l = 8%nat -> length m = 8%nat -> bits_num l = bits_num m -> l = m.
Proof. intros H1 H2 E. rewrite <- (byte_bits_num l H1), <- (byte_bits_num m H2). now f_equal. Qed.
Lemma bits_bytes_inj n l m : length l = (8 * n)%nat -> length m = (8 * n)%nat -> bits_bytes n l = bits_bytes n m -> l = m.
Proof.
  revert l m; induction n as [|n IH]; intros l m H1 H2 E; [destruct l, m; cbn in *; try lia; reflexivity|].
  assert (bits_num (firstn 8 l) = bits_num (firstn 8 m) /\ bits_bytes n (skipn 8 l) = bits_bytes n (skipn 8 m)) as [E1 E2]
    by (split; [exact (f_equal (hd 0) E)|exact (f_equal (@tl N) E)]).
  apply bits_num_inj in E1; [|rewrite firstn_length; lia|rewrite firstn_length; lia].
  apply IH in E2; [|rewrite skipn_length; lia|rewrite skipn_length; lia]. rewrite <- (firstn_skipn 8 l), <- (firstn_skipn 8 m). congruence.
Qed.

Lemma app_halves (a b c d : list bool) : length a = 32%nat -> length c = 32%nat -> a ++ b = c ++ d -> a = c /\ b = d.
Proof.
  intros H1 H2 E. assert (firstn 32 (a ++ b) = firstn 32 (c ++ d)) as E1 by now rewrite E.
  assert (skipn 32 (a ++ b) = skipn 32 (c ++ d)) as E2 by now rewrite E.
  rewrite <- H1 in E1 at 1. rewrite <- H2 in E1. rewrite <- H1 in E2 at 1. rewrite <- H2 in E2.
  rewrite !firstn_app, !firstn_all, !Nat.sub_diag, !firstn_O, !app_nil_r in E1.
  rewrite !skipn_app, !skipn_all, !Nat.sub_diag, !skipn_O in E2. now split.
Qed.

Theorem real_des_permutes : des_permutes real_prims.
Proof.
  intros k a b _ [La Ba] [Lb Bb] E. cbn [p_des real_prims] in E. unfold real_des in E.
  set (x := permute des_IP (flat_map byte_bits a)) in *. set (y := permute des_IP (flat_map byte_bits b)) in *.
  assert (halves (firstn 32 x, skipn 32 x)) as Hx.
  { split; cbn [fst snd]; [rewrite firstn_length|rewrite skipn_length]; unfold x; rewrite permute_length; reflexivity. }
  assert (halves (firstn 32 y, skipn 32 y)) as Hy.
  { split; cbn [fst snd]; [rewrite firstn_length|rewrite skipn_length]; unfold y; rewrite permute_length; reflexivity. }
  pose proof (rounds_halves (des_subkeys k) _ Hx) as Rx. pose proof (rounds_halves (des_subkeys k) _ Hy) as Ry.
  pose proof (rounds_inj (des_subkeys k) _ _ Hx Hy) as R.
  destruct (fold_left des_feistel (des_subkeys k) (firstn 32 x, skipn 32 x)) as [l r].
  destruct (fold_left des_feistel (des_subkeys k) (firstn 32 y, skipn 32 y)) as [l' r'].
  destruct Rx as [X1 X2], Ry as [Y1 Y2]. cbn [fst snd] in *.
  apply bits_bytes_inj in E; [|rewrite permute_length; reflexivity..].
  assert (r ++ l = r' ++ l') as E'.
  { rewrite <- (IP_FP (r ++ l)), <- (IP_FP (r' ++ l')), E by (rewrite app_length; lia). reflexivity. }
  apply app_halves in E'; [|assumption..]. destruct E' as [-> ->]. specialize (R eq_refl).
  pose proof (f_equal fst R) as R1. pose proof (f_equal snd R) as R2. cbn [fst snd] in R1, R2.
  assert (x = y) as XY by (rewrite <- (firstn_skipn 32 x), <- (firstn_skipn 32 y), R1, R2; reflexivity).
  apply bytes_bits_inj; try assumption; [congruence|].
  rewrite <- (FP_IP (flat_map byte_bits a)), <- (FP_IP (flat_map byte_bits b)) by (rewrite bytes_bits_length, ?La, ?Lb; reflexivity).
  fold x y. now rewrite XY.
Qed.
