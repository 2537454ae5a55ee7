(** Facts about printed forms. *)
From Coq Require Import ZifyBool ZifyNat ZifyN.
From Coq Require Import FinFun Ascii String.
From Verif Require Import Base Unicode Wire Debug Spec SpecDebug Lib Decode.

Ltac Zify.zify_post_hook ::= Z.div_mod_to_equations.

(** ** C46 *)
Lemma fold_blocks f (p : N -> bool) : (forall i, has_flag f i = p i) -> forall l out first,
  fold_left (flag_block f) l (out, first)
  = let names := map (fun b => text (snd b)) (filter (fun b => p (fst b)) l) in
    match names with
    | [] => (out, first)
    | _ => (out ++ (if first then [] else match names with [] => [] | _ => [BAR] end) ++ bar_separated names, false)
    end.
Proof.
  intros Hp. induction l as [|[i n] l IH]; intros out first; [reflexivity|].
  cbn [fold_left filter fst snd]. unfold flag_block at 2. cbn [fst snd]. rewrite Hp. destruct (p i); cbn [map snd].
  - rewrite IH. cbn zeta. destruct (map _ (filter _ l)) as [|s r] eqn:E.
    + cbn [bar_separated]. destruct first; [reflexivity|]. reflexivity.
    + cbn [bar_separated]. change (text "|"%string) with [BAR].
      destruct first; rewrite <- ?app_assoc; reflexivity.
  - apply IH.
Qed.
(** The printed form: the names of the set bits from bit 31 to bit 0, separated by bars. *)
Lemma C46_flags_printed_lem : forall f,
  flags_debug f = bar_separated (map (fun b => text (snd b)) (filter (fun b => N.testbit f (fst b)) flag_names)).
Proof.
  intros f. unfold flags_debug. rewrite (fold_blocks f (N.testbit f)) by apply has_flag_testbit.
  change flag_blocks with flag_names. cbn zeta. destruct (map _ _); reflexivity.
Qed.
(** Every bit has its place in the list, in descending order. *)
Lemma C46_all_bits_named_lem : map fst flag_names = rev (map N.of_nat (seq 0 32)) /\ NoDup (map snd flag_names).
Proof.
  split; [reflexivity|].
  assert (E : nodup string_dec (map snd flag_names) = map snd flag_names) by (vm_compute; reflexivity).
  rewrite <- E. apply NoDup_nodup.
Qed.

(** A printed form tells the flags: two different words are never printed alike. *)
Lemma bar_head s l : s <> [] -> ~ In BAR s -> (forall x, In x l -> x <> [] /\ ~ In BAR x) ->
  forall s' l', s' <> [] -> ~ In BAR s' ->
  bar_separated (s :: l) = bar_separated (s' :: l') -> s = s' /\ bar_separated l = bar_separated l' /\ (l = [] <-> l' = []).
Proof.
  assert (K : forall (s s' r r' : list N), ~ In BAR s -> ~ In BAR s' -> s ++ BAR :: r = s' ++ BAR :: r' -> s = s' /\ r = r').
  { clear s. induction s as [|x s IH]; intros [|y s'] r r' N1 N2 H; cbn [app] in H.
    - split; [reflexivity|]. exact (f_equal (@tl N) H).
    - elim N2. left. exact (eq_sym (f_equal (hd 0) H)).
    - elim N1. left. exact (f_equal (hd 0) H).
    - pose proof (f_equal (hd 0) H) as H1. pose proof (f_equal (@tl N) H) as H2. cbn [hd tl] in H1, H2. destruct (IH s' r r') as [A B].
      + intros Q. apply N1. right. exact Q.
      + intros Q. apply N2. right. exact Q.
      + exact H2.
      + subst. auto. }
  intros Hs Nb Hl s' l' Hs' Nb' H. 
  destruct l as [|t l], l' as [|t' l']; cbn [bar_separated] in H.
  - repeat split; auto.
  - exfalso. apply Nb. rewrite H. apply in_or_app. right. left. reflexivity.
  - exfalso. apply Nb'. rewrite <- H. apply in_or_app. right. left. reflexivity.
  - destruct (K _ _ _ _ Nb Nb' H) as [A B]. repeat split; auto; discriminate.
Qed.
Lemma bar_separated_inj : forall l l',
  (forall x, In x l -> x <> [] /\ ~ In BAR x) -> (forall x, In x l' -> x <> [] /\ ~ In BAR x) ->
  bar_separated l = bar_separated l' -> l = l'.
Proof.
  assert (E : forall s l, s <> [] -> bar_separated (s :: l) <> []).
  { intros s [|t l] Hs; cbn [bar_separated]; [exact Hs|]. destruct s; [elim Hs; reflexivity|discriminate]. }
  induction l as [|s l IH]; intros [|s' l'] Hl Hl' H.
  - reflexivity.
  - exfalso. apply (E s' l'); [apply Hl'; left; reflexivity|]. rewrite <- H. reflexivity.
  - exfalso. apply (E s l); [apply Hl; left; reflexivity|]. rewrite H. reflexivity.
  - destruct (Hl s (or_introl eq_refl)) as [A B], (Hl' s' (or_introl eq_refl)) as [A' B'].
    destruct (bar_head s l A B (fun x q => Hl x (or_intror q)) s' l' A' B' H) as [S [R _]].
    f_equal; [exact S|]. apply IH; [intros x q; apply Hl; right; exact q|intros x q; apply Hl'; right; exact q|exact R].
Qed.
Lemma filter_names_inj (A B : Type) (g : A -> B) (p q : A -> bool) : forall l, NoDup (map g l) ->
  map g (filter p l) = map g (filter q l) -> forall x, In x l -> p x = q x.
Proof.
  assert (K : forall (p : A -> bool) l b, ~ In b (map g l) -> ~ In b (map g (filter p l))).
  { intros p0 l b H Q. apply H. apply in_map_iff in Q. destruct Q as [x [E F]]. apply filter_In in F. apply in_map_iff. exists x. tauto. }
  induction l as [|a l IH]; intros ND H x Hx; [destruct Hx|].
  cbn [map] in ND. apply NoDup_cons_iff in ND. destruct ND as [Na ND]. cbn [filter] in H.
  assert (S : p a = q a /\ map g (filter p l) = map g (filter q l)).
  { destruct (p a), (q a); cbn [map] in H.
    - injection H as H. auto.
    - exfalso. apply (K q l _ Na). rewrite <- H. left. reflexivity.
    - exfalso. apply (K p l _ Na). rewrite H. left. reflexivity.
    - auto. }
  destruct S as [S1 S2]. destruct Hx as [<-|Hx]; [exact S1|]. apply IH; assumption.
Qed.
Lemma names_plain : forallb (fun b => negb (Nat.eqb (length (text (snd b))) 0)
    && forallb (fun c => negb (c =? BAR)) (text (snd b))) flag_names = true.
Proof. vm_compute. reflexivity. Qed.
Lemma text_inj a b : text a = text b -> a = b.
Proof.
  unfold text. intros H. rewrite <- (string_of_list_ascii_of_string a), <- (string_of_list_ascii_of_string b). f_equal.
  revert H. generalize (list_ascii_of_string a) (list_ascii_of_string b).
  induction l as [|x l IH]; intros [|y l'] H; cbn [map] in H; try discriminate; [reflexivity|].
  injection H as H1 H2. f_equal; [|apply IH; exact H2].
  rewrite <- (ascii_N_embedding x), <- (ascii_N_embedding y). f_equal. exact H1.
Qed.
Lemma C46_flags_told_apart_lem : forall f g, is_u32 f -> is_u32 g -> flags_debug f = flags_debug g -> f = g.
Proof.
  intros f g Hf Hg H. rewrite !C46_flags_printed_lem in H.
  assert (P : forall p x, In x (map (fun b : N * string => text (snd b)) (filter p flag_names)) -> x <> [] /\ ~ In BAR x).
  { intros p x Hx. apply in_map_iff in Hx. destruct Hx as [b [<- Hb]]. apply filter_In in Hb. destruct Hb as [Hb _].
    pose proof names_plain as Q. rewrite forallb_forall in Q. specialize (Q _ Hb). apply andb_prop in Q. destruct Q as [Q1 Q2]. split.
    - intros Z. rewrite Z in Q1. discriminate.
    - intros Z. rewrite forallb_forall in Q2. specialize (Q2 _ Z). rewrite N.eqb_refl in Q2. discriminate. }
  apply bar_separated_inj in H; [|apply P|apply P].
  pose proof (filter_names_inj (N * string) rstring (fun b => text (snd b)) (fun b => N.testbit f (fst b)) (fun b => N.testbit g (fst b)) flag_names) as F.
  assert (ND : NoDup (map (fun b : N * string => text (snd b)) flag_names)).
  { rewrite <- (map_map snd text). apply Coq.Logic.FinFun.Injective_map_NoDup; [exact text_inj|apply C46_all_bits_named_lem]. }
  specialize (F ND H). apply N.bits_inj. intros i.
  destruct (N.ltb_spec i 32) as [L|L].
  - assert (I : In i (map fst flag_names)).
    { destruct C46_all_bits_named_lem as [-> _]. apply in_rev. rewrite rev_involutive. apply in_map_iff. exists (N.to_nat i).
      split; [lia|]. apply in_seq. lia. }
    apply in_map_iff in I. destruct I as [b [<- Hb]]. exact (F b Hb).
  - unfold is_u32 in *. rewrite !N.testbit_eqb.
    assert (B : 4294967296 <= 2 ^ i). { change 4294967296 with (2 ^ 32). apply N.pow_le_mono_r; lia. }
    rewrite !N.div_small by lia. reflexivity.
Qed.
Example C46_flags_printed_ex_lem : is_u32 2181038081
  /\ flags_debug 2181038081 = text "NTLMSSP_NEGOTIATE_56|NTLMSSP_NEGOTIATE_VERSION|NTLMSSP_NEGOTIATE_UNICODE"%string
  /\ flags_debug 0 = [].
Proof. vm_compute. auto. Qed.

(** ** C47 *)
Lemma two_lower_hex x : is_u8 x -> pad2 (lower_hex 2 x []) = two_digits x.
Proof.
  assert (A : forallb (fun n => if list_eq_dec N.eq_dec (pad2 (lower_hex 2 (N.of_nat n) [])) (two_digits (N.of_nat n)) then true else false) (seq 0 256) = true)
    by (vm_compute; reflexivity).
  intros H. rewrite forallb_forall in A. specialize (A (N.to_nat x)). rewrite N2Nat.id in A.
  unfold is_u8 in H. destruct (list_eq_dec _ _ _) as [E|]; [exact E|]. exfalso.
  assert (false = true); [apply A; apply in_seq; lia|discriminate].
Qed.
(** A buffer prints as two hexadecimal digits per byte. *)
Lemma C47_buffer_printed_lem : forall b, is_bytes b ->
  buffer_debug b = flat_map two_digits b /\ length (buffer_debug b) = (2 * length b)%nat.
Proof.
  intros b H. assert (E : buffer_debug b = flat_map two_digits b).
  { unfold buffer_debug. induction H as [|x b Hx _ IH]; [reflexivity|]. cbn [flat_map]. rewrite IH, two_lower_hex by exact Hx. reflexivity. }
  split; [exact E|]. rewrite E. clear. induction b as [|x b IH]; [reflexivity|]. cbn [flat_map length]. rewrite app_length, IH. cbn [two_digits length]. lia.
Qed.
Lemma two_digits_inj x y : is_u8 x -> is_u8 y -> two_digits x = two_digits y -> x = y.
Proof.
  intros Hx Hy H. unfold is_u8 in *. unfold two_digits in H. injection H as H1 H2.
  assert (ND : NoDup hex_digits).
  { unfold hex_digits. vm_compute. repeat (constructor; [cbn; intuition discriminate|]). constructor. }
  rewrite NoDup_nth in ND. 
  assert (L : length hex_digits = 16%nat) by reflexivity.
  apply ND in H1; [|rewrite L; lia|rewrite L; lia]. apply ND in H2; [|rewrite L; lia|rewrite L; lia]. lia.
Qed.
(** A printed buffer tells its bytes. *)
Lemma C47_buffers_told_apart_lem : forall b c, is_bytes b -> is_bytes c -> buffer_debug b = buffer_debug c -> b = c.
Proof.
  intros b c Hb Hc H. rewrite (proj1 (C47_buffer_printed_lem b Hb)), (proj1 (C47_buffer_printed_lem c Hc)) in H.
  revert c Hc H. induction Hb as [|x b Hx _ IH]; intros [|y c] Hc H; cbn [flat_map] in H; try discriminate; [reflexivity|].
  inversion_clear Hc as [|? ? Hy Hc'].
  assert (two_digits x = two_digits y /\ flat_map two_digits b = flat_map two_digits c) as [E1 E2].
  { unfold two_digits in *. cbn [app] in H. injection H as A B C. split; [f_equal; [exact A|f_equal; exact B]|exact C]. }
  f_equal; [apply two_digits_inj; assumption|apply IH; assumption].
Qed.
Example C47_buffer_printed_ex_lem : is_bytes [0; 10; 171; 255] /\ buffer_debug [0; 10; 171; 255] = text "000aabff"%string.
Proof. split; [repeat constructor|vm_compute; reflexivity]. Qed.
