(** DES key expansion: the model's byte arithmetic against the bit-stream
    specification, by enumeration of all byte pairs. *)
From Coq Require Import ZifyBool ZifyNat ZifyN.
From Verif Require Import Base Nom Unicode Wire Structures Prims Messages Crypto Spec SpecCrypto Lib.

Ltac Zify.zify_post_hook ::= Z.div_mod_to_equations.

Definition all_bytes : list N := map N.of_nat (seq 0 256).
Lemma all_bytes_in x : is_u8 x -> In x all_bytes.
Proof.
  intros H. unfold is_u8 in H. apply in_map_iff. exists (N.to_nat x). split; [lia|]. apply in_seq. lia.
Qed.
Definition key_core (v : N) : N :=
  let v := N.land v (255 - 1) in if count_ones v mod 2 =? 0 then N.lor v 1 else v.
Lemma key_sweep_mid : forallb (fun b => forallb (fun x => forallb (fun y =>
    key_core (N.lor (shl8 x (8 - N.of_nat b)) (shr8 y (N.of_nat b)))
    =? parity_byte (skipn (8 - b) (msb_bits x) ++ firstn (7 - b) (msb_bits y)))
    all_bytes) all_bytes) [1; 2; 3; 4; 5; 6]%nat = true.
Proof. vm_compute. reflexivity. Qed.
Lemma key_sweep_0 : forallb (fun x => key_core x =? parity_byte (firstn 7 (msb_bits x))) all_bytes = true.
Proof. vm_compute. reflexivity. Qed.
Lemma key_sweep_7 : forallb (fun x => key_core (shl8 x 1) =? parity_byte (skipn 1 (msb_bits x))) all_bytes = true.
Proof. vm_compute. reflexivity. Qed.
Lemma key_mid b x y : In b [1; 2; 3; 4; 5; 6]%nat -> is_u8 x -> is_u8 y ->
  key_core (N.lor (shl8 x (8 - N.of_nat b)) (shr8 y (N.of_nat b)))
  = parity_byte (skipn (8 - b) (msb_bits x) ++ firstn (7 - b) (msb_bits y)).
Proof.
  intros Hb Hx Hy. pose proof key_sweep_mid as H. rewrite forallb_forall in H.
  specialize (H b Hb). rewrite forallb_forall in H. specialize (H x (all_bytes_in x Hx)).
  rewrite forallb_forall in H. specialize (H y (all_bytes_in y Hy)). now apply N.eqb_eq.
Qed.
Lemma key_0 x : is_u8 x -> key_core x = parity_byte (firstn 7 (msb_bits x)).
Proof.
  intros Hx. pose proof key_sweep_0 as H. rewrite forallb_forall in H. apply N.eqb_eq, H, all_bytes_in, Hx.
Qed.
Lemma key_7 x : is_u8 x -> key_core (shl8 x 1) = parity_byte (skipn 1 (msb_bits x)).
Proof.
  intros Hx. pose proof key_sweep_7 as H. rewrite forallb_forall in H. apply N.eqb_eq, H, all_bytes_in, Hx.
Qed.
Lemma des_key_byte_core k b : des_key_byte k b =
  key_core (if (b =? 0)%nat then nth 0 k 0
            else if (b =? 7)%nat then shl8 (nth 6 k 0) 1
            else N.lor (shl8 (nth (b - 1) k 0) (8 - N.of_nat b)) (shr8 (nth b k 0) (N.of_nat b))).
Proof. reflexivity. Qed.
Lemma expand_ok k : is_buffer 7 k -> des_56bits_to_64bits k = Val (expand_key k).
Proof.
  intros [Hl Hb]. unfold des_56bits_to_64bits. rewrite Hl. cbn [Nat.eqb]. f_equal.
  destruct k as [|k0 [|k1 [|k2 [|k3 [|k4 [|k5 [|k6 [|]]]]]]]]; try discriminate Hl.
  repeat match goal with H : is_bytes (_ :: _) |- _ => inversion H; clear H; subst end.
  repeat match goal with H : Forall is_u8 (_ :: _) |- _ => inversion H; clear H; subst end.
  cbn [seq map]. rewrite !des_key_byte_core. cbn [Nat.eqb nth Nat.sub].
  rewrite key_0 by assumption. rewrite !key_mid by (assumption || (cbn; tauto)). rewrite key_7 by assumption.
  reflexivity.
Qed.
Lemma sevens_bits n l : length l = (7 * n)%nat -> concat (sevens n l) = l.
Proof.
  revert l; induction n as [|n IH]; intros l H; cbn [sevens concat].
  - destruct l; [reflexivity|discriminate].
  - rewrite IH, firstn_skipn; [reflexivity|]. rewrite skipn_length. lia.
Qed.
Lemma sevens_length n l : length l = (7 * n)%nat -> Forall (fun s => length s = 7%nat) (sevens n l).
Proof.
  revert l; induction n as [|n IH]; intros l H; cbn [sevens]; constructor.
  - rewrite firstn_length. lia.
  - apply IH. rewrite skipn_length. lia.
Qed.
Fixpoint all_bits (n : nat) : list (list bool) :=
  match n with O => [[]] | S n => map (cons true) (all_bits n) ++ map (cons false) (all_bits n) end.
Lemma all_bits_in l : In l (all_bits (length l)).
Proof.
  induction l as [|b l IH]; cbn [length all_bits]; [left; reflexivity|].
  apply in_or_app. destruct b; [left|right]; now apply in_map.
Qed.
Lemma parity_sweep : forallb (fun s =>
    (parity_byte s <? 256) && odd_number (msb_bits (parity_byte s))
    && (if list_eq_dec Bool.bool_dec (firstn 7 (msb_bits (parity_byte s))) s then true else false))
  (all_bits 7) = true.
Proof. vm_compute. reflexivity. Qed.
Lemma parity_ok s : length s = 7%nat -> is_u8 (parity_byte s)
  /\ odd_number (msb_bits (parity_byte s)) = true /\ firstn 7 (msb_bits (parity_byte s)) = s.
Proof.
  intros H. pose proof parity_sweep as A. rewrite forallb_forall in A.
  specialize (A s). rewrite <- H in A. specialize (A (all_bits_in s)). rewrite H in A.
  rewrite !andb_true_iff in A. destruct A as [[A1 A2] A3]. unfold is_u8.
  split; [lia|]. split; [exact A2|]. destruct (list_eq_dec _ _ _) as [E|]; [exact E|discriminate].
Qed.
Lemma msb_concat_length k : length (flat_map msb_bits k) = (8 * length k)%nat.
Proof. induction k as [|x k IH]; [reflexivity|]. cbn [flat_map]. rewrite app_length, IH. cbn. lia. Qed.
Lemma msb_bits_inj_sweep : forallb (fun x => bits_value (msb_bits x) =? x) all_bytes = true.
Proof. vm_compute. reflexivity. Qed.
Lemma msb_bits_value x : is_u8 x -> bits_value (msb_bits x) = x.
Proof.
  intros Hx. pose proof msb_bits_inj_sweep as H. rewrite forallb_forall in H. apply N.eqb_eq, H, all_bytes_in, Hx.
Qed.
Lemma msb_concat_inj k k' : is_bytes k -> is_bytes k' -> flat_map msb_bits k = flat_map msb_bits k' -> k = k'.
Proof.
  intros H; revert k'; induction H as [|x k Hx Hk IH]; intros k' H' E.
  - destruct k'; [reflexivity|discriminate E].
  - destruct H' as [|y k' Hy Hk']; [discriminate E|]. cbn [flat_map] in E.
    assert (E1 : msb_bits x = msb_bits y).
    { apply (f_equal (firstn 8)) in E. exact E. }
    assert (E2 : flat_map msb_bits k = flat_map msb_bits k').
    { apply (f_equal (skipn 8)) in E. exact E. }
    f_equal; [|now apply IH]. rewrite <- (msb_bits_value x), <- (msb_bits_value y), E1 by assumption. reflexivity.
Qed.
Lemma expand_props k : is_buffer 7 k -> is_buffer 8 (expand_key k)
  /\ Forall (fun x => odd_number (msb_bits x) = true) (expand_key k)
  /\ flat_map (fun x => firstn 7 (msb_bits x)) (expand_key k) = flat_map msb_bits k.
Proof.
  intros [Hl Hb]. unfold expand_key.
  assert (L : length (flat_map msb_bits k) = (7 * 8)%nat) by (rewrite msb_concat_length, Hl; reflexivity).
  pose proof (sevens_length 8 _ L) as S. pose proof (sevens_bits 8 _ L) as C.
  set (l := sevens 8 (flat_map msb_bits k)) in *.
  assert (Hlen : length l = 8%nat) by reflexivity. clearbody l. rewrite <- C. clear C L.
  split; [split; [now rewrite map_length|]|split].
  - apply Forall_map. eapply Forall_impl; [|exact S]. intros s Hs. now apply parity_ok.
  - apply Forall_map. eapply Forall_impl; [|exact S]. intros s Hs. now apply parity_ok.
  - clear Hlen. induction S as [|s l Hs S IH]; [reflexivity|]. cbn [map flat_map concat].
    rewrite IH. destruct (parity_ok s Hs) as (_ & _ & ->). reflexivity.
Qed.
