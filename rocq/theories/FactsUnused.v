(** Code outside the built crate. *)
From Coq Require Import ZifyBool ZifyNat ZifyN.
From Verif Require Import Base Nom Unicode Wire Structures Prims Messages Spec SpecBuild SpecDebug Lib Encode Decode RoundTrip Parse Samples Debug FactsEncode FactsDecode FactsBuild FactsDebug FactsVersioned Unused SpecUnused.

Section Items.
  Context {T : Type}.
  Variable eqb : T -> T -> bool.
  Hypothesis eqb_ok : forall x y, eqb x y = true <-> x = y.
  Variable flag : N.
  Hypothesis small : flag <= 31.
  Lemma has_item l x : existsb (fun y => eqb y x) l = true <-> In x l.
  Proof.
    rewrite existsb_exists. split; [intros (y & H & E); apply eqb_ok in E; now subst|].
    intros H. exists x. split; [exact H|now apply eqb_ok].
  Qed.
  Lemma found l x : match find_index eqb l x with
    | None => ~ In x l
    | Some i => exists a b, l = a ++ x :: b /\ ~ In x a /\ remove_at l i = a ++ b
    end.
  Proof.
    induction l as [|y l IH]; cbn [find_index]; [easy|]. destruct (eqb y x) eqn:E.
    - apply eqb_ok in E. subst y. exists [], l. split; [reflexivity|]. split; [intros []|reflexivity].
    - assert (N : y <> x) by (intros ->; rewrite (proj2 (eqb_ok x x) eq_refl) in E; discriminate).
      destruct (find_index eqb l x) as [i|]; cbn [option_map].
      + destruct IH as (a & b & -> & Ha & R). exists (y :: a), b. split; [reflexivity|]. split; [intros [H|H]; [congruence|tauto]|].
        unfold remove_at in *. cbn [firstn skipn app]. f_equal. exact R.
      + intros [H|H]; [congruence|tauto].
  Qed.
  Lemma del_cases s x : (~ In x (fg_items s) /\ item_del eqb flag s x = s)
    \/ exists a b, fg_items s = a ++ x :: b /\ ~ In x a
         /\ item_del eqb flag s x = mkFlagged (if is_nil (a ++ b) then clear_flag (fg_flags s) flag else fg_flags s) (a ++ b).
  Proof.
    unfold item_del. pose proof (found (fg_items s) x) as F. destruct (find_index eqb (fg_items s) x) as [i|]; [right|now left].
    destruct F as (a & b & E & H & R). exists a, b. rewrite R. auto.
  Qed.
  Lemma step_ok s o : in_step flag s ->
    in_step flag (item_apply eqb flag s o)
    /\ (forall j, j <> flag -> N.testbit (fg_flags (item_apply eqb flag s o)) j = N.testbit (fg_flags s) j)
    /\ (forall x, In x (fg_items (item_apply eqb flag s o))
         <-> match o with AddItem y => In x (fg_items s) \/ x = y | DelItem y => In x (fg_items s) /\ x <> y | ClearItems => False end).
  Proof.
    intros (U & D & B). destruct o as [y|y|]; cbn [item_apply].
    - unfold item_add. destruct (existsb _ (fg_items s)) eqn:E.
      + apply has_item in E. split; [now split|]. split; [auto|]. intros x. split; [auto|]. intros [H| ->]; auto.
      + assert (N : ~ In y (fg_items s)) by (rewrite <- has_item; congruence). cbn [fg_flags fg_items].
        split; [split; [now apply set_flag_u32|]|].
        * cbn [fg_flags fg_items]. split.
          -- apply NoDup_rev in D. rewrite <- (rev_involutive (fg_items s ++ [y])). apply NoDup_rev. rewrite rev_app_distr. cbn [rev app].
             constructor; [now rewrite <- in_rev|exact D].
          -- rewrite (set_flag_bits (fg_flags s) flag flag). rewrite N.eqb_refl. split; [intros _; now destruct (fg_items s)|auto].
        * split; [intros j Hj; rewrite (set_flag_bits (fg_flags s) flag j); now replace (j =? flag) with false by lia|].
          intros x. rewrite in_app_iff. cbn [In]. split; intros [H|H]; auto. destruct H as [H|H]; [auto|tauto].
    - destruct (del_cases s y) as [[N ->]|(a & b & E & N & ->)].
      + split; [now split|]. split; [auto|]. intros x. split; [|tauto]. intros H. split; [exact H|]. intros ->. tauto.
      + cbn [fg_flags fg_items]. rewrite E in D. pose proof (NoDup_remove_1 _ _ _ D) as D1. pose proof (NoDup_remove_2 _ _ _ D) as D2.
        assert (C : is_u32 (clear_flag (fg_flags s) flag)) by (apply (put_flag_u32 _ _ false); assumption).
        pose proof (clear_flag_bits (fg_flags s) flag U small) as K.
        split; [split; [now destruct (is_nil (a ++ b))|]|]; cbn [fg_flags fg_items].
        * split; [exact D1|]. destruct (a ++ b) as [|z l] eqn:Z; cbn [is_nil].
          -- rewrite (K flag), N.eqb_refl. split; [discriminate|congruence].
          -- rewrite B. split; [discriminate|]. intros _. rewrite E. now destruct a.
        * split; [intros j Hj; destruct (is_nil (a ++ b)); [|reflexivity]; rewrite (K j); now replace (j =? flag) with false by lia|].
          intros x. rewrite E, !in_app_iff. cbn [In]. split.
          -- intros H. split; [tauto|]. intros ->. apply D2, in_app_iff. exact H.
          -- intros [[H|[H|H]] Hx]; auto. congruence.
    - unfold item_clear. cbn [fg_flags fg_items]. pose proof (clear_flag_bits (fg_flags s) flag U small) as K.
      split; [split; [apply (put_flag_u32 _ _ false); assumption|]|]; cbn [fg_flags fg_items].
      + split; [constructor|]. rewrite (K flag), N.eqb_refl. split; [discriminate|congruence].
      + split; [intros j Hj; rewrite (K j); now replace (j =? flag) with false by lia|]. intros x. now split.
  Qed.
  Lemma present_snoc (l : list T) h o x : present l (h ++ [o]) x
    <-> match o with AddItem y => present l h x \/ x = y | DelItem y => present l h x /\ x <> y | ClearItems => False end.
  Proof.
    assert (U : forall k, untouched x (k ++ [o]) <-> untouched x k /\ o <> DelItem x /\ o <> ClearItems).
    { intros k. unfold untouched. rewrite !in_app_iff. cbn [In]. intuition congruence. }
    assert (S : present l (h ++ [o]) x <-> (present l h x /\ o <> DelItem x /\ o <> ClearItems) \/ o = AddItem x).
    { unfold present. split.
      - intros [[H1 H2]|(h1 & h2 & E & H2)].
        + apply U in H2. tauto.
        + destruct h2 as [|z h2'] using rev_ind.
          * apply app_inj_tail in E as [_ E]. now right.
          * clear IHh2'. rewrite app_comm_cons, app_assoc in E. apply app_inj_tail in E as [E1 E2]. subst z.
            apply U in H2. left. split; [|tauto]. right. exists h1, h2'. tauto.
      - intros [[[[H1 H2]|(h1 & h2 & E & H2)] Ho]| ->].
        + left. rewrite U. tauto.
        + right. exists h1, (h2 ++ [o]). rewrite U. split; [|tauto]. rewrite E. now rewrite <- app_assoc.
        + right. exists h, []. split; [reflexivity|]. split; intros []. }
    rewrite S. destruct o as [y|y|].
    - split; [intros [H|H]; [tauto|injection H as ->; auto]|]. intros [H| ->]; [left|now right]. split; [exact H|]. now split.
    - split; [intros [(H & H1 & _)|H]; [|discriminate]|intros [H H1]; left]; [split; [exact H|congruence]|].
      split; [exact H|]. split; congruence.
    - split; [intros [(_ & _ & H)|H]; congruence|easy].
  Qed.
  Lemma run_items l s h : in_step flag s -> fg_items s = l ->
    let s' := fold_left (item_apply eqb flag) h s in
    in_step flag s' /\ (forall j, j <> flag -> N.testbit (fg_flags s') j = N.testbit (fg_flags s) j)
    /\ forall x, In x (fg_items s') <-> present l h x.
  Proof.
    intros I E. induction h as [|o h IH] using rev_ind.
    - cbn [fold_left]. split; [exact I|]. split; [auto|]. intros x. rewrite E. unfold present. split.
      + intros H. left. split; [exact H|]. split; intros [].
      + intros [[H _]|(h1 & h2 & Z & _)]; [exact H|]. now destruct h1.
    - cbv zeta in *. rewrite fold_left_app. cbn [fold_left]. destruct IH as (I' & F & M).
      destruct (step_ok (fold_left (item_apply eqb flag) h s) o I') as (J & G & K).
      split; [exact J|]. split; [intros j Hj; rewrite G by exact Hj; now apply F|].
      intros x. rewrite K, present_snoc. destruct o as [y|y|]; rewrite ?M; tauto.
  Qed.
End Items.

(** ** C114 *)
(** The setters of the unused arm would keep the flag in step with the items: no item
    twice, those that were added and not deleted since, and no other flag touched. *)
Lemma C114_items_lem : forall (T : Type) (eqb : T -> T -> bool) flag s h,
  (forall x y, eqb x y = true <-> x = y) -> flag <= 31 -> in_step flag s ->
  let s' := fold_left (item_apply eqb flag) h s in
  in_step flag s' /\ (forall j, j <> flag -> N.testbit (fg_flags s') j = N.testbit (fg_flags s) j)
  /\ forall x, In x (item_get s') <-> present (item_get s) h x.
Proof. intros T eqb flag s h E F I. exact (run_items eqb E flag F (item_get s) s h I eq_refl). Qed.
(** Adding puts a new item last; deleting keeps the others in their order. *)
Lemma C114_order_lem : forall (T : Type) (eqb : T -> T -> bool) flag s x,
  (forall x y, eqb x y = true <-> x = y) -> NoDup (item_get s) ->
  (~ In x (item_get s) -> item_get (item_add eqb flag s x) = item_get s ++ [x])
  /\ (In x (item_get s) -> item_add eqb flag s x = s)
  /\ item_get (item_del eqb flag s x) = filter (fun y => negb (eqb y x)) (item_get s).
Proof.
  intros T eqb flag s x E D. unfold item_get in *. split; [|split].
  - intros N. unfold item_add. destruct (existsb _ (fg_items s)) eqn:H; [|reflexivity]. now apply (has_item eqb E) in H.
  - intros H. unfold item_add. apply (has_item eqb E) in H. now rewrite H.
  - assert (K : forall l, ~ In x l -> filter (fun y => negb (eqb y x)) l = l).
    { induction l as [|y l IH]; [reflexivity|]. intros N. cbn [filter]. replace (eqb y x) with false.
      - cbn [negb]. f_equal. apply IH. intros H. apply N. now right.
      - symmetry. apply not_true_iff_false. intros H. apply E in H. apply N. now left. }
    destruct (del_cases eqb E flag s x) as [[N ->]|(a & b & H & N & ->)]; [symmetry; now apply K|].
    cbn [fg_items]. rewrite H in D |- *. apply NoDup_remove_2 in D. rewrite in_app_iff in D.
    rewrite filter_app. cbn [filter]. replace (eqb x x) with true by (symmetry; now apply E). cbn [negb].
    rewrite !K by tauto. reflexivity.
Qed.
(** The key type that no module declares carries any bytes; the one that is
    built in agrees with it exactly on inputs of 16 bytes. *)
Lemma C114_key_lem : forall b,
  (forall w, loose_key_ser b w = Val (len b, w ++ b)) /\ loose_key_de b = POk [] b /\ loose_key_debug b = buffer_debug b
  /\ (buf_de 16 b = loose_key_de b <-> len b = 16)
  /\ (len b = 16 -> loose_key_ser b = buf_ser 16 b).
Proof.
  intros b. split; [reflexivity|]. split; [reflexivity|]. split; [reflexivity|]. split; [split|].
  - intros H. apply take_inv in H as [_ L]. unfold len. now rewrite L.
  - intros L. rewrite <- (app_nil_r b) at 1. apply take_ok. unfold len in L. lia.
  - intros L. unfold loose_key_ser, buf_ser. now rewrite L.
Qed.
Example C114_ex_lem :
  let s := mkFlagged 1 [7; 9] in
  in_step 0 s /\ (forall x y, (x =? y) = true <-> x = y)
  /\ fold_left (item_apply N.eqb 0) [AddItem 9; DelItem 7; AddItem 5; AddItem 7] s = mkFlagged 1 [9; 5; 7]
  /\ fold_left (item_apply N.eqb 0) [DelItem 9; DelItem 7; DelItem 7] s = mkFlagged 0 []
  /\ fold_left (item_apply N.eqb 0) [ClearItems; AddItem 3] s = mkFlagged 1 [3]
  /\ buf_de 16 (repeat 3 16) = POk [] (repeat 3 16) /\ loose_key_de (repeat 3 17) = POk [] (repeat 3 17)
  /\ buf_de 16 (repeat 3 17) = POk [3] (repeat 3 16).
Proof.
  intros s. split.
  - split; [reflexivity|]. split; [|split; [discriminate|reflexivity]]. repeat constructor; cbn; intuition discriminate.
  - split; [apply N.eqb_eq|]. do 3 (split; [vm_compute; reflexivity|]). split; [reflexivity|]. split; reflexivity.
Qed.
