(** General lemmas: lengths, little endian, slices, parsers, serialisers. *)
From Coq Require Import ZifyBool ZifyNat ZifyN.
From Verif Require Import Base Nom Unicode Wire Structures Messages Spec.

Ltac Zify.zify_post_hook ::= Z.div_mod_to_equations.

(** ** Lengths *)
Lemma len_nil {A} : len (@nil A) = 0.
Proof. reflexivity. Qed.
Lemma len_cons {A} (x : A) l : len (x :: l) = 1 + len l.
Proof. unfold len; cbn [length]; lia. Qed.
Lemma len_app {A} (a b : list A) : len (a ++ b) = len a + len b.
Proof. unfold len; rewrite app_length; lia. Qed.
Lemma len_zeros n : len (zeros n) = N.of_nat n.
Proof. unfold len, zeros; rewrite repeat_length; reflexivity. Qed.
Lemma len_nat {A} (l : list A) : N.to_nat (len l) = length l.
Proof. unfold len; lia. Qed.
Lemma len_0_nil {A} (l : list A) : len l = 0 -> l = [].
Proof. destruct l; [reflexivity|]; rewrite len_cons; lia. Qed.
Lemma is_nil_true {A} (l : list A) : is_nil l = true <-> l = [].
Proof. destruct l; cbn; split; congruence. Qed.
Lemma is_nil_app {A} (a b : list A) : is_nil (a ++ b) = is_nil a && is_nil b.
Proof. destruct a; reflexivity. Qed.

(** ** Lists *)
Lemma firstn_app_exact {A} (a b : list A) n : n = length a -> firstn n (a ++ b) = a.
Proof. intros ->. rewrite firstn_app, Nat.sub_diag, firstn_all; cbn; apply app_nil_r. Qed.
Lemma skipn_app_exact {A} (a b : list A) n : n = length a -> skipn n (a ++ b) = b.
Proof. intros ->. rewrite skipn_app, Nat.sub_diag, skipn_all; reflexivity. Qed.
Lemma beq_bytes_eq a b : beq_bytes a b = true <-> a = b.
Proof.
  revert b; induction a as [|x a IH]; destruct b as [|y b]; cbn; try (split; congruence).
  rewrite andb_true_iff, N.eqb_eq, IH. split; [intros [-> ->]; reflexivity|].
  intros H; injection H as -> ->; split; reflexivity.
Qed.
Lemma beq_bytes_refl a : beq_bytes a a = true.
Proof. apply beq_bytes_eq; reflexivity. Qed.

Lemma Forall_firstn {A} (P : A -> Prop) n l : Forall P l -> Forall P (firstn n l).
Proof.
  revert l; induction n as [|n IH]; intros l H; cbn; [constructor|].
  destruct H; constructor; auto.
Qed.
Lemma Forall_skipn {A} (P : A -> Prop) n l : Forall P l -> Forall P (skipn n l).
Proof.
  revert l; induction n as [|n IH]; intros l H; cbn; [exact H|].
  destruct H; [constructor|auto].
Qed.

(** ** Little endian *)
Lemma le_enc_length k n : length (le_enc k n) = k.
Proof. revert n; induction k as [|k IH]; intros n; cbn; [reflexivity|]; now rewrite IH. Qed.
Lemma le_enc_bytes k n : is_bytes (le_enc k n).
Proof.
  revert n; induction k as [|k IH]; intros n; cbn; constructor; [|apply IH].
  unfold is_u8; lia.
Qed.
Lemma le_enc_S k n : le_enc (S k) n = n mod 256 :: le_enc k (n / 256).
Proof. reflexivity. Qed.
Lemma le_dec_enc k n : n < 256 ^ N.of_nat k -> le_dec (le_enc k n) = n.
Proof.
  revert n; induction k as [|k IH]; intros n H.
  - cbn in *. lia.
  - rewrite le_enc_S; cbn [le_dec]. rewrite IH.
    + pose proof (N.div_mod n 256); lia.
    + rewrite Nat2N.inj_succ, N.pow_succ_r' in H. apply N.div_lt_upper_bound; lia.
Qed.
Lemma le_enc_dec b : is_bytes b -> le_enc (length b) (le_dec b) = b.
Proof.
  induction 1 as [|x b Hx Hb IH]; [reflexivity|].
  cbn [length le_dec]. rewrite le_enc_S. unfold is_u8 in Hx.
  f_equal.
  - rewrite N.mul_comm, N.mod_add by lia. apply N.mod_small; lia.
  - rewrite N.mul_comm, N.div_add by lia. rewrite N.div_small by lia. exact IH.
Qed.
Lemma le_dec_bound b : is_bytes b -> le_dec b < 256 ^ N.of_nat (length b).
Proof.
  induction 1 as [|x b Hx Hb IH]; [cbn; lia|].
  cbn [length le_dec]. rewrite Nat2N.inj_succ, N.pow_succ_r'. unfold is_u8 in Hx. lia.
Qed.
Lemma le_enc_2 n : le_enc 2 n = le16 n.
Proof. reflexivity. Qed.
Lemma le_enc_4 n : le_enc 4 n = le32 n.
Proof.
  unfold le32. repeat rewrite le_enc_S. rewrite !N.div_div by lia. reflexivity.
Qed.
Lemma le_enc_1 n : le_enc 1 n = [n mod 256].
Proof. reflexivity. Qed.
Lemma le16_length n : length (le16 n) = 2%nat. Proof. reflexivity. Qed.
Lemma le32_length n : length (le32 n) = 4%nat. Proof. reflexivity. Qed.
Lemma len_le16 n : len (le16 n) = 2. Proof. reflexivity. Qed.
Lemma len_le32 n : len (le32 n) = 4. Proof. reflexivity. Qed.
Lemma le16_bytes n : is_bytes (le16 n). Proof. rewrite <- le_enc_2; apply le_enc_bytes. Qed.
Lemma le32_bytes n : is_bytes (le32 n). Proof. rewrite <- le_enc_4; apply le_enc_bytes. Qed.

Lemma u8_pow n : n < 256 ^ N.of_nat 1 <-> is_u8 n. Proof. reflexivity. Qed.
Lemma u16_pow n : n < 256 ^ N.of_nat 2 <-> is_u16 n. Proof. reflexivity. Qed.
Lemma u32_pow n : n < 256 ^ N.of_nat 4 <-> is_u32 n. Proof. reflexivity. Qed.
Lemma u64_pow n : n < 256 ^ N.of_nat 8 <-> is_u64 n. Proof. reflexivity. Qed.

Lemma is_bytes_app a b : is_bytes (a ++ b) <-> is_bytes a /\ is_bytes b.
Proof. apply Forall_app. Qed.
Lemma is_bytes_firstn n b : is_bytes b -> is_bytes (firstn n b).
Proof. apply Forall_firstn. Qed.
Lemma is_bytes_skipn n b : is_bytes b -> is_bytes (skipn n b).
Proof. apply Forall_skipn. Qed.
Lemma is_bytes_zeros n : is_bytes (zeros n).
Proof. unfold zeros; induction n; cbn; constructor; auto. unfold is_u8; lia. Qed.

(** ** Slices *)
Lemma slice_ok b s e : s <= e -> e <= len b -> slice b s e = Val (sub b s (e - s)).
Proof.
  intros H1 H2. unfold slice, sub.
  destruct (e <? s) eqn:E1; [lia|]. destruct (len b <? e) eqn:E2; [lia|]. reflexivity.
Qed.
Lemma slice_panic b s e : e < s \/ len b < e -> slice b s e = Panic PSlice.
Proof.
  intros H. unfold slice.
  destruct (e <? s) eqn:E1; [reflexivity|]. destruct (len b <? e) eqn:E2; [reflexivity|]. lia.
Qed.
Lemma sub_app a x r n k : len a = n -> len x = k -> sub (a ++ x ++ r) n k = x.
Proof.
  intros <- <-. unfold sub. rewrite !len_nat.
  rewrite skipn_app_exact by reflexivity. apply firstn_app_exact; reflexivity.
Qed.
Lemma sub_app_l a r n k : n + k <= len a -> sub (a ++ r) n k = sub a n k.
Proof.
  intros H. unfold sub, len in *.
  rewrite skipn_app, firstn_app.
  replace (N.to_nat k - length (skipn (N.to_nat n) a))%nat with 0%nat
    by (rewrite skipn_length; lia).
  cbn. apply app_nil_r.
Qed.
Lemma sub_len b s n : s + n <= len b -> len (sub b s n) = n.
Proof. intros H. unfold sub, len in *. rewrite firstn_length, skipn_length. lia. Qed.
Lemma sub_bytes b s n : is_bytes b -> is_bytes (sub b s n).
Proof. intros H. apply is_bytes_firstn, is_bytes_skipn, H. Qed.

(** ** Parsers *)
Lemma take_ok n a r : length a = n -> take n (a ++ r) = POk r a.
Proof.
  intros <-. unfold take. rewrite app_length.
  destruct (length a + length r <? length a)%nat eqn:E; [lia|].
  now rewrite skipn_app_exact, firstn_app_exact.
Qed.
Lemma take_inv n i r a : take n i = POk r a -> i = a ++ r /\ length a = n.
Proof.
  unfold take. destruct (length i <? n)%nat eqn:E; [discriminate|].
  intros H; injection H as <- <-. split; [now rewrite firstn_skipn|].
  rewrite firstn_length; lia.
Qed.
Lemma take_cases n i :
  (exists a r, i = a ++ r /\ length a = n /\ take n i = POk r a)
  \/ ((length i < n)%nat /\ take n i = PErr EError).
Proof.
  unfold take. destruct (length i <? n)%nat eqn:E.
  - right. split; [lia|reflexivity].
  - left. exists (firstn n i), (skipn n i). rewrite firstn_skipn, firstn_length.
    repeat split; lia.
Qed.
Lemma le_uint_ok k n r : n < 256 ^ N.of_nat k -> le_uint k (le_enc k n ++ r) = POk r n.
Proof.
  intros H. unfold le_uint. rewrite take_ok by apply le_enc_length.
  cbn [pbind]. now rewrite le_dec_enc.
Qed.
Lemma le_uint_inv k i r n : le_uint k i = POk r n ->
  exists a, i = a ++ r /\ length a = k /\ n = le_dec a.
Proof.
  unfold le_uint. destruct (take k i) as [r' a| |] eqn:E; cbn; try discriminate.
  intros H; injection H as <- <-. apply take_inv in E. exists a; intuition.
Qed.
Lemma le_u16_ok n r : is_u16 n -> le_u16 (le16 n ++ r) = POk r n.
Proof. intros H. rewrite <- le_enc_2. now apply le_uint_ok. Qed.
Lemma le_u32_ok n r : is_u32 n -> le_u32 (le32 n ++ r) = POk r n.
Proof. intros H. rewrite <- le_enc_4. now apply le_uint_ok. Qed.
Lemma le_u8_ok n r : is_u8 n -> le_u8 (n :: r) = POk r n.
Proof. intros H. change (n :: r) with ([n] ++ r).
  replace [n] with (le_enc 1 n) by (rewrite le_enc_1, N.mod_small; auto). now apply le_uint_ok. Qed.
Lemma tag_ok t r : tag t (t ++ r) = POk r t.
Proof.
  unfold tag. rewrite app_length.
  destruct (length t <=? length t + length r)%nat eqn:E; [|lia].
  rewrite firstn_app_exact, skipn_app_exact, beq_bytes_refl by reflexivity. reflexivity.
Qed.
Lemma tag_inv t i r a : tag t i = POk r a -> i = t ++ r /\ a = t.
Proof.
  unfold tag. destruct (length t <=? length i)%nat eqn:E1; cbn; [|discriminate].
  destruct (beq_bytes _ _) eqn:E2; [|discriminate].
  intros H; injection H as <- <-. apply beq_bytes_eq in E2.
  split; [|reflexivity]. rewrite <- E2 at 1. now rewrite firstn_skipn.
Qed.
Lemma verify_ok {A} (p : parser A) f i r a : p i = POk r a -> f a = true -> verify p f i = POk r a.
Proof. intros H1 H2. unfold verify. rewrite H1; cbn. now rewrite H2. Qed.
Lemma verify_inv {A} (p : parser A) f i r a : verify p f i = POk r a -> p i = POk r a /\ f a = true.
Proof.
  unfold verify. destruct (p i) as [r' a'| |]; cbn; try discriminate.
  destruct (f a') eqn:E; try discriminate. intros H; injection H as <- <-. auto.
Qed.
Lemma pbind_inv {A B} (e : pres A) (k : bytes -> A -> pres B) r b :
  pbind e k = POk r b -> exists r' a, e = POk r' a /\ k r' a = POk r b.
Proof. destruct e; cbn; try discriminate. intros H. eauto. Qed.

(** ** Serialisers *)

(** [s] always succeeds, appends exactly [b] and reports its length. *)
Definition writes (s : ser) (b : bytes) : Prop := forall w, s w = Val (len b, w ++ b).
(** [s] always panics, on a failed integer conversion. *)
Definition expect_panics (s : ser) : Prop := forall w, s w = Panic PExpect.

Lemma writes_uint k n : writes (write_uint k n) (le_enc k n).
Proof. intros w. reflexivity. Qed.
Lemma writes_u8 n : writes (write_u8 n) [n mod 256].
Proof. apply writes_uint. Qed.
Lemma writes_u16 n : writes (write_u16 n) (le16 n).
Proof. apply writes_uint. Qed.
Lemma writes_u32 n : writes (write_u32 n) (le32 n).
Proof. rewrite <- le_enc_4. apply writes_uint. Qed.
Lemma writes_raww b n : n = len b -> writes (raww b n) b.
Proof. intros -> w. reflexivity. Qed.
Lemma writes_seqw s t a b : writes s a -> writes t b -> writes (s +++ t) (a ++ b).
Proof.
  intros H1 H2 w. unfold seqw. rewrite H1; cbn [obind]. rewrite H2; cbn [obind].
  now rewrite len_app, app_assoc.
Qed.
Lemma writes_vec {T} (s : T -> ser) (e : T -> bytes) l :
  (forall x, In x l -> writes (s x) (e x)) -> writes (ser_vec s l) (flat_map e l).
Proof.
  induction l as [|x l IH]; intros H w; cbn [ser_vec flat_map].
  - now rewrite app_nil_r.
  - rewrite (H x) by (left; reflexivity); cbn [obind].
    rewrite IH by (intros y Hy; apply H; right; exact Hy); cbn [obind].
    now rewrite len_app, app_assoc.
Qed.
Lemma writes_serialize cfg s b : writes s b -> serialize cfg s = Val b.
Proof.
  intros H. unfold serialize. rewrite H; cbn. rewrite N.eqb_refl.
  now destruct (debug cfg).
Qed.
Lemma writes_buf n b : length b = n -> writes (buf_ser n b) b.
Proof. intros <-. now apply writes_raww. Qed.
Lemma expect_seqw_r s t a : writes s a -> expect_panics t -> expect_panics (s +++ t).
Proof. intros H1 H2 w. unfold seqw. rewrite H1; cbn [obind]. now rewrite H2. Qed.
