(** Proofs about the form [{:#?}]. *)
From Coq Require Import ZifyBool ZifyNat ZifyN Ascii String.
From Verif Require Import Base Nom Unicode Wire Structures Prims Messages Crypto Client Debug Log Print Pretty Spec SpecDebug SpecLog SpecPrint SpecPretty
  Lib Samples FactsDebug FactsLog FactsPrint.

(** ** Induction over calls *)
Lemma list_eq_nil_dec {A} (l : list A) : {l = []} + {l <> []}.
Proof. destruct l; [now left|right; discriminate]. Qed.
Section CallInd.
  Context (P : fmt_call -> Prop)
    (HW : forall s, P (Write s))
    (HS : forall name fields, Forall (fun f => P (snd f)) fields -> P (DebugStruct name fields))
    (HT : forall name values, Forall P values -> P (DebugTuple name values))
    (HL : forall values, Forall P values -> P (DebugList values)).
  Fixpoint call_ind (c : fmt_call) : P c :=
    match c with
    | Write s => HW s
    | DebugStruct name fields => HS name fields
        ((fix go (l : list (string * fmt_call)) : Forall (fun f => P (snd f)) l :=
           match l with [] => Forall_nil _ | (k, v) :: r => Forall_cons (k, v) (call_ind v : P (snd (k, v))) (go r) end) fields)
    | DebugTuple name values => HT name values
        ((fix go (l : list fmt_call) : Forall P l :=
           match l with [] => Forall_nil _ | v :: r => Forall_cons v (call_ind v) (go r) end) values)
    | DebugList values => HL values
        ((fix go (l : list fmt_call) : Forall P l :=
           match l with [] => Forall_nil _ | v :: r => Forall_cons v (call_ind v) (go r) end) values)
    end.
End CallInd.

(** ** Calls whose texts keep to their line: no line break, and no space or
    closing bracket in front *)
Definition keeps (s : rstring) : bool := forallb (fun c => negb (c =? 10)) s && negb (first_is [32; 41; 93; 125] s).
Fixpoint keep_to_line (c : fmt_call) : bool :=
  match c with
  | Write s => keeps s
  | DebugStruct name fields =>
      keeps (text name) && negb (length (text name) =? 0)%nat
      && forallb (fun f => let '(k, v) := f in keeps (text k) && negb (length (text k) =? 0)%nat && keep_to_line v) fields
  | DebugTuple name values =>
      keeps (text name) && negb (length (text name) =? 0)%nat && forallb keep_to_line values
  | DebugList values => forallb keep_to_line values
  end.

(** ** Lines *)
Definition no_break (s : rstring) : bool := forallb (fun c => negb (c =? 10)) s.
Definition ended (L : list (nat * rstring)) : rstring := flat_map (fun l => indented l ++ [10]) L.
Definition deeper (l : nat * rstring) : nat * rstring := (S (fst l), snd l).

Lemma no_break_app s t : no_break (s ++ t) = no_break s && no_break t.
Proof. apply forallb_app. Qed.
Lemma pad_app s t b : no_break s = true -> s <> [] -> pad_adapter b (s ++ t) = (if b then text "    " else []) ++ s ++ pad_adapter false t.
Proof.
  revert b. induction s as [|c s IH]; intros b H Hs; [easy|]. cbn in H. apply andb_true_iff in H as [Hc H].
  cbn [pad_adapter app]. rewrite (proj1 (negb_true_iff _) Hc). destruct s as [|d s]; [reflexivity|].
  rewrite IH by (auto; discriminate). reflexivity.
Qed.
Lemma pad_false s t : no_break s = true -> pad_adapter false (s ++ t) = s ++ pad_adapter false t.
Proof. destruct s as [|c s]; [reflexivity|]. intros H. now rewrite pad_app. Qed.
Lemma indented_deeper l : indented (deeper l) = text "    " ++ indented l.
Proof.
  destruct l as [d s]. unfold indented, deeper. cbn [fst snd]. replace (4 * S d)%nat with (4 + 4 * d)%nat by lia.
  rewrite repeat_app, <- app_assoc. reflexivity.
Qed.
Lemma no_break_repeat n : no_break (repeat 32 n) = true.
Proof. induction n; [reflexivity|]. exact IHn. Qed.
Lemma pad_line l t : no_break (snd l) = true -> pad_adapter true (indented l ++ [10] ++ t) = indented (deeper l) ++ [10] ++ pad_adapter true t.
Proof.
  intros H. rewrite indented_deeper.
  assert (G : no_break (indented l) = true) by (unfold indented; rewrite no_break_app, no_break_repeat; exact H).
  destruct (indented l) as [|c s]; [reflexivity|]. rewrite pad_app by (auto; discriminate). rewrite <- app_assoc. reflexivity.
Qed.
Lemma pad_ended L : Forall (fun l => no_break (snd l) = true) L -> pad_adapter true (ended L) = ended (map deeper L).
Proof.
  induction L as [|l L IH]; intros H; [reflexivity|]. inversion H; subst.
  change (ended (l :: L)) with ((indented l ++ [10]) ++ ended L).
  change (ended (map deeper (l :: L))) with ((indented (deeper l) ++ [10]) ++ ended (map deeper L)).
  rewrite <- !app_assoc. rewrite pad_line by assumption. now rewrite IH.
Qed.
Lemma ended_app L M : ended (L ++ M) = ended L ++ ended M.
Proof. apply flat_map_app. Qed.
Lemma ended_cons l L : ended (l :: L) = indented l ++ [10] ++ ended L.
Proof. cbn [ended flat_map]. now rewrite <- app_assoc. Qed.
Lemma indented_0 s : indented (0%nat, s) = s.
Proof. reflexivity. Qed.
Lemma join_ended L : L <> [] -> join_lines (map indented L) ++ [10] = ended L.
Proof.
  induction L as [|l L IH]; intros H; [easy|]. destruct L as [|m L]; [cbn; now rewrite app_nil_r|].
  change (join_lines (map indented (l :: m :: L))) with (indented l ++ [10] ++ join_lines (map indented (m :: L))).
  rewrite <- !app_assoc, IH by discriminate.
  change (ended (l :: m :: L)) with ((indented l ++ [10]) ++ ended (m :: L)). now rewrite <- app_assoc.
Qed.

(** *** The layout one level deeper *)
Lemma layout_deeper c : forall d p q, map deeper (layout d p q c) = layout (S d) p q c.
Proof.
  induction c as [s|name fields IH|name values IH|values IH] using call_ind; intros d p q.
  - reflexivity.
  - destruct fields as [|f fields]; [reflexivity|]. cbn [layout]. cbn [map]. rewrite map_app. f_equal. f_equal.
    rewrite !flat_map_concat_map, concat_map, map_map. f_equal. apply map_ext_in. intros [k v] Hin.
    rewrite Forall_forall in IH. apply (IH _ Hin).
  - destruct values as [|v values]; [reflexivity|]. cbn [layout]. cbn [map]. rewrite map_app. f_equal. f_equal.
    rewrite !flat_map_concat_map, concat_map, map_map. f_equal. apply map_ext_in. intros w Hin.
    rewrite Forall_forall in IH. apply (IH _ Hin).
  - destruct values as [|v values]; [reflexivity|]. cbn [layout]. cbn [map]. rewrite map_app. f_equal. f_equal.
    rewrite !flat_map_concat_map, concat_map, map_map. f_equal. apply map_ext_in. intros w Hin.
    rewrite Forall_forall in IH. apply (IH _ Hin).
Qed.
Lemma layout_nonempty d p q c : layout d p q c <> [].
Proof. destruct c as [s|n [|f l]|n [|v l]|[|v l]]; discriminate. Qed.
Lemma keeps_no_break s : keeps s = true -> no_break s = true.
Proof. intros H. apply andb_true_iff in H as [H _]. exact H. Qed.
Lemma layout_no_break c : keep_to_line c = true -> forall d p q, no_break p = true -> no_break q = true ->
  Forall (fun l => no_break (snd l) = true) (layout d p q c).
Proof.
  induction c as [s|name fields IH|name values IH|values IH] using call_ind; intros K d p q Hp Hq; cbn [keep_to_line] in K.
  - repeat constructor. cbn [snd]. rewrite !no_break_app, Hp, Hq, (keeps_no_break _ K). reflexivity.
  - apply andb_true_iff in K as [K KF]. apply andb_true_iff in K as [K _]. apply keeps_no_break in K.
    assert (B : Forall (fun l => no_break (snd l) = true) (flat_map (fun f => let '(k, v) := f in layout (S d) (text k ++ text ": ") (text ",") v) fields)).
    { rewrite forallb_forall in KF. rewrite Forall_forall in IH. apply Forall_flat_map. apply Forall_forall. intros [k v] Hin.
      specialize (KF _ Hin). cbn in KF. apply andb_true_iff in KF as [KF KV]. apply andb_true_iff in KF as [KF _].
      apply (IH _ Hin); [exact KV| |reflexivity]. rewrite no_break_app, (keeps_no_break _ KF). reflexivity. }
    destruct fields as [|f fields]; [repeat constructor; cbn [snd]; now rewrite !no_break_app, Hp, Hq, K|].
    cbn [layout]. constructor; [cbn [snd]; now rewrite !no_break_app, Hp, K|]. apply Forall_app. split; [exact B|].
    repeat constructor. cbn [snd]. now rewrite no_break_app, Hq.
  - apply andb_true_iff in K as [K KF]. apply andb_true_iff in K as [K _]. apply keeps_no_break in K.
    assert (B : Forall (fun l => no_break (snd l) = true) (flat_map (layout (S d) [] (text ",")) values)).
    { rewrite forallb_forall in KF. rewrite Forall_forall in IH. apply Forall_flat_map. apply Forall_forall. intros v Hin.
      apply (IH _ Hin); [apply KF, Hin|reflexivity|reflexivity]. }
    destruct values as [|f values]; [repeat constructor; cbn [snd]; now rewrite !no_break_app, Hp, Hq, K|].
    cbn [layout]. constructor; [cbn [snd]; now rewrite !no_break_app, Hp, K|]. apply Forall_app. split; [exact B|].
    repeat constructor. cbn [snd]. now rewrite no_break_app, Hq.
  - assert (B : Forall (fun l => no_break (snd l) = true) (flat_map (layout (S d) [] (text ",")) values)).
    { rewrite forallb_forall in K. rewrite Forall_forall in IH. apply Forall_flat_map. apply Forall_forall. intros v Hin.
      apply (IH _ Hin); [apply K, Hin|reflexivity|reflexivity]. }
    destruct values as [|f values]; [repeat constructor; cbn [snd]; now rewrite !no_break_app, Hp, Hq|].
    cbn [layout]. constructor; [cbn [snd]; now rewrite !no_break_app, Hp|]. apply Forall_app. split; [exact B|].
    repeat constructor. cbn [snd]. now rewrite no_break_app, Hq.
Qed.

(** *** The pretty form is the layout *)
Lemma padded v k : keep_to_line v = true -> no_break k = true ->
  k ++ pretty v ++ text "," ++ [10] = ended (layout 0 k (text ",") v) ->
  pad_adapter true (k ++ pretty v ++ text "," ++ [10]) = ended (layout 1 k (text ",") v).
Proof.
  intros K Hk E. rewrite E, pad_ended, layout_deeper; [reflexivity|]. apply layout_no_break; auto.
Qed.
Lemma flat_ended {A} (g : A -> rstring) (h : A -> list (nat * rstring)) l :
  (forall x, In x l -> g x = ended (h x)) -> flat_map g l = ended (flat_map h l).
Proof.
  induction l as [|x l IH]; intros H; [reflexivity|]. cbn [flat_map]. rewrite ended_app, <- IH by (intros; apply H; now right).
  rewrite H by now left. reflexivity.
Qed.
Lemma pretty_ended c : keep_to_line c = true -> forall p q,
  p ++ pretty c ++ q ++ [10] = ended (layout 0 p q c).
Proof.
  induction c as [s|name fields IH|name values IH|values IH] using call_ind; intros K p q; cbn [keep_to_line] in K.
  - cbn. rewrite <- !app_assoc. reflexivity.
  - apply andb_true_iff in K as [_ KF]. rewrite forallb_forall in KF. rewrite Forall_forall in IH.
    destruct fields as [|f fields]; [cbn; rewrite <- !app_assoc; reflexivity|].
    change (pretty (DebugStruct name (f :: fields))) with (text name ++ text " {" ++ [10]
      ++ flat_map (fun f => let '(k, v) := f in pad_adapter true (text k ++ text ": " ++ pretty v ++ text "," ++ [10])) (f :: fields)
      ++ text "}").
    change (layout 0 p q (DebugStruct name (f :: fields))) with ((0%nat, p ++ text name ++ text " {")
      :: flat_map (fun f => let '(k, v) := f in layout 1 (text k ++ text ": ") (text ",") v) (f :: fields) ++ [(0%nat, text "}" ++ q)]).
    set (l := f :: fields) in *. clearbody l.
    rewrite (flat_ended _ (fun f => let '(k, v) := f in layout 1 (text k ++ text ": ") (text ",") v)).
    2:{ intros [k v] Hin. specialize (KF _ Hin). cbn in KF. apply andb_true_iff in KF as [KF KV]. apply andb_true_iff in KF as [KF _].
        rewrite app_assoc. apply padded; [exact KV| |].
        - rewrite no_break_app, (keeps_no_break _ KF). reflexivity.
        - apply (IH _ Hin). exact KV. }
    rewrite ended_cons, ended_app, ended_cons, !indented_0. change (ended []) with (@nil N).
    rewrite ?app_nil_r, <- !app_assoc. reflexivity.
  - apply andb_true_iff in K as [_ KF]. rewrite forallb_forall in KF. rewrite Forall_forall in IH.
    destruct values as [|f values]; [cbn; rewrite <- !app_assoc; reflexivity|].
    change (pretty (DebugTuple name (f :: values))) with (text name ++ text "(" ++ [10]
      ++ flat_map (fun v => pad_adapter true (pretty v ++ text "," ++ [10])) (f :: values) ++ text ")").
    change (layout 0 p q (DebugTuple name (f :: values))) with ((0%nat, p ++ text name ++ text "(")
      :: flat_map (layout 1 [] (text ",")) (f :: values) ++ [(0%nat, text ")" ++ q)]).
    set (l := f :: values) in *. clearbody l.
    rewrite (flat_ended _ (layout 1 [] (text ","))).
    2:{ intros v Hin. apply (padded v []); [apply KF, Hin|reflexivity|]. apply (IH _ Hin). apply KF, Hin. }
    rewrite ended_cons, ended_app, ended_cons, !indented_0. change (ended []) with (@nil N).
    rewrite ?app_nil_r, <- !app_assoc. reflexivity.
  - rewrite forallb_forall in K. rewrite Forall_forall in IH.
    destruct values as [|f values]; [cbn; rewrite <- !app_assoc; reflexivity|].
    change (pretty (DebugList (f :: values))) with (text "[" ++ [10]
      ++ flat_map (fun v => pad_adapter true (pretty v ++ text "," ++ [10])) (f :: values) ++ text "]").
    change (layout 0 p q (DebugList (f :: values))) with ((0%nat, p ++ text "[")
      :: flat_map (layout 1 [] (text ",")) (f :: values) ++ [(0%nat, text "]" ++ q)]).
    set (l := f :: values) in *. clearbody l.
    rewrite (flat_ended _ (layout 1 [] (text ","))).
    2:{ intros v Hin. apply (padded v []); [apply K, Hin|reflexivity|]. apply (IH _ Hin). apply K, Hin. }
    rewrite ended_cons, ended_app, ended_cons, !indented_0. change (ended []) with (@nil N).
    rewrite ?app_nil_r, <- !app_assoc. reflexivity.
Qed.
Lemma pretty_layout c : keep_to_line c = true -> pretty c = join_lines (map indented (layout 0 [] [] c)).
Proof.
  intros K. pose proof (pretty_ended c K [] []) as H. cbn [app] in H.
  rewrite <- join_ended in H by apply layout_nonempty. now apply app_inv_tail in H.
Qed.

(** ** Taking the line breaks out *)
Lemma split_line s r : no_break s = true -> split_lines (s ++ [10] ++ r) = s :: split_lines r.
Proof.
  induction s as [|c s IH]; intros H; [reflexivity|]. cbn in H. apply andb_true_iff in H as [Hc H].
  cbn [app split_lines]. rewrite (proj1 (negb_true_iff _) Hc). cbn [app] in IH. now rewrite (IH H).
Qed.
Lemma split_one s : no_break s = true -> split_lines s = [s].
Proof.
  induction s as [|c s IH]; intros H; [reflexivity|]. cbn in H. apply andb_true_iff in H as [Hc H].
  cbn [split_lines]. rewrite (proj1 (negb_true_iff _) Hc), (IH H). reflexivity.
Qed.
Lemma split_join L : L <> [] -> Forall (fun s => no_break s = true) L -> split_lines (join_lines L) = L.
Proof.
  induction L as [|s L IH]; intros Hn H; [easy|]. inversion H; subst. destruct L as [|t L]; [now apply split_one|].
  change (join_lines (s :: t :: L)) with (s ++ [10] ++ join_lines (t :: L)). rewrite split_line by assumption.
  now rewrite IH.
Qed.
Lemma without_indented l : first_is [32] (snd l) = false -> without_indent (indented l) = snd l.
Proof.
  destruct l as [d s]. unfold indented. cbn [fst snd]. intros H. induction (4 * d)%nat as [|n IH].
  - cbn [repeat app]. destruct s as [|c s]; [reflexivity|]. cbn in H |- *. rewrite orb_false_r in H. now rewrite H.
  - exact IH.
Qed.

Definition comma_or_not (b : rstring) : rstring :=
  if first_is [41; 93] b then [] else if first_is [125] b then [32] else text ", ".
Lemma last_is_app l x c : last_is l (x ++ [c]) = existsb (N.eqb c) l.
Proof. unfold last_is. rewrite rev_app_distr. reflexivity. Qed.
Lemma continued_comma x b : continued (x ++ text ",") b = x ++ comma_or_not b.
Proof.
  unfold continued, comma_or_not. change (text ",") with [44]. rewrite !last_is_app. cbn [existsb N.eqb Pos.eqb orb andb].
  destruct (first_is [41; 93] b); [now rewrite removelast_last, app_nil_r|].
  destruct (first_is [125] b); rewrite ?removelast_last, <- ?app_assoc; reflexivity.
Qed.
Lemma continued_open x c b : In c [40; 91] -> continued (x ++ [c]) b = x ++ [c].
Proof. intros [<-|[<-|[]]]; unfold continued; rewrite last_is_app; reflexivity. Qed.
Lemma continued_curly x b : continued (x ++ text " {") b = x ++ text " { ".
Proof.
  change (text " {") with ([32] ++ [123]). rewrite app_assoc. unfold continued. rewrite !last_is_app. cbn [existsb N.eqb Pos.eqb orb andb].
  rewrite <- !app_assoc. reflexivity.
Qed.
Lemma one_line_cons a b r : one_line (a :: b :: r) = continued a b ++ one_line (b :: r).
Proof. reflexivity. Qed.

Definition free_head (L : list rstring) : Prop := match L with s :: _ => first_is [41; 93; 125] s = false | [] => False end.
Lemma free_comma s : first_is [41; 93; 125] s = false -> comma_or_not s = text ", ".
Proof.
  intros H. unfold comma_or_not. destruct s as [|c s]; [reflexivity|]. cbn in *. repeat rewrite orb_false_iff in H.
  destruct H as (-> & -> & -> & _). reflexivity.
Qed.
Lemma items {A} (lay : A -> list rstring) (g : A -> rstring) z r l : l <> [] ->
  (forall x, In x l -> free_head (lay x)) ->
  (forall x b t, In x l -> one_line (lay x ++ b :: t) = g x ++ comma_or_not b ++ one_line (b :: t)) ->
  one_line (flat_map lay l ++ z :: r) = comma_separated (map g l) ++ comma_or_not z ++ one_line (z :: r).
Proof.
  induction l as [|x l IH]; intros Hn Hf H; [easy|]. destruct l as [|y l].
  - cbn [flat_map map comma_separated]. rewrite app_nil_r. apply H. now left.
  - change (flat_map lay (x :: y :: l)) with (lay x ++ flat_map lay (y :: l)).
    change (comma_separated (map g (x :: y :: l))) with (g x ++ text ", " ++ comma_separated (map g (y :: l))).
    assert (E : one_line (flat_map lay (y :: l) ++ z :: r) = comma_separated (map g (y :: l)) ++ comma_or_not z ++ one_line (z :: r)).
    { apply IH; [discriminate|intros; apply Hf; now right|intros; apply H; now right]. }
    rewrite <- app_assoc. pose proof (Hf y (or_intror (or_introl eq_refl))) as Hy. cbn [flat_map] in E |- *.
    destruct (lay y) as [|b t]; [easy|]. cbn [app free_head] in *. rewrite H by now left. rewrite E, free_comma by exact Hy.
    now rewrite <- !app_assoc.
Qed.

Lemma layout_head c d p q : keep_to_line c = true -> first_is [32; 41; 93; 125] p = false -> first_is [32; 41; 93; 125] q = false ->
  match layout d p q c with l :: _ => first_is [32; 41; 93; 125] (snd l) = false | [] => False end.
Proof.
  intros K Hp Hq.
  assert (G : forall s, first_is [32; 41; 93; 125] s = false -> first_is [32; 41; 93; 125] (p ++ s) = false).
  { intros s Hs. destruct p as [|x p]; [exact Hs|exact Hp]. }
  assert (F : forall s t, keeps s = true -> first_is [32; 41; 93; 125] t = false -> first_is [32; 41; 93; 125] (s ++ t) = false).
  { intros s t Hs Ht. apply andb_true_iff in Hs as [_ Hs]. apply negb_true_iff in Hs. destruct s as [|x s]; [exact Ht|exact Hs]. }
  assert (N : forall s t, keeps s = true -> negb (length s =? 0)%nat = true -> first_is [32; 41; 93; 125] (s ++ t) = false).
  { intros s t Hs Hl. destruct s as [|x s]; [discriminate Hl|]. apply andb_true_iff in Hs as [_ Hs]. now apply negb_true_iff in Hs. }
  destruct c as [s|name fields|name values|values]; cbn [keep_to_line] in K.
  - cbn [layout snd]. apply G, F; assumption.
  - apply andb_true_iff in K as [K _]. apply andb_true_iff in K as [K1 K2].
    destruct fields; cbn [layout snd]; apply G, N; assumption.
  - apply andb_true_iff in K as [K _]. apply andb_true_iff in K as [K1 K2].
    destruct values; cbn [layout snd]; apply G, N; assumption.
  - destruct values; cbn [layout snd]; apply G; reflexivity.
Qed.
Lemma key_first k : keeps (text k) = true -> negb (length (text k) =? 0)%nat = true ->
  first_is [32; 41; 93; 125] (text k ++ text ": ") = false.
Proof.
  intros K L. destruct (text k) as [|x s]; [discriminate L|]. apply andb_true_iff in K as [_ K]. now apply negb_true_iff in K.
Qed.
Lemma head_free c d p q : keep_to_line c = true -> first_is [32; 41; 93; 125] p = false -> first_is [32; 41; 93; 125] q = false ->
  free_head (map snd (layout d p q c)).
Proof.
  intros K Hp Hq. pose proof (layout_head c d p q K Hp Hq) as H. destruct (layout d p q c) as [|l L]; [exact H|].
  cbn [map free_head] in *. destruct (snd l) as [|x s]; [reflexivity|]. cbn in *. destruct (x =? 32); [discriminate H|exact H].
Qed.
Lemma no_indent_all c : keep_to_line c = true -> forall d p q, first_is [32; 41; 93; 125] p = false -> first_is [32; 41; 93; 125] q = false ->
  Forall (fun l => first_is [32] (snd l) = false) (layout d p q c).
Proof.
  assert (W : forall s, first_is [32; 41; 93; 125] s = false -> first_is [32] s = false).
  { intros [|x s] H; [reflexivity|]. cbn in *. now destruct (x =? 32). }
  induction c as [s|name fields IH|name values IH|values IH] using call_ind; intros K d p q Hp Hq;
    pose proof (layout_head _ d p q K Hp Hq) as H; cbn [keep_to_line] in K.
  - cbn [layout] in *. constructor; [now apply W|constructor].
  - apply andb_true_iff in K as [_ KF]. rewrite forallb_forall in KF. rewrite Forall_forall in IH.
    destruct fields as [|f fields]; cbn [layout] in *; (constructor; [now apply W|]); [constructor|].
    apply Forall_app. split; [|constructor; [reflexivity|constructor]].
    apply Forall_flat_map, Forall_forall. intros [k v] Hin. specialize (KF _ Hin). cbn in KF.
    apply andb_true_iff in KF as [KF KV]. apply andb_true_iff in KF as [KF KL].
    apply (IH _ Hin); [exact KV|now apply key_first|reflexivity].
  - apply andb_true_iff in K as [_ KF]. rewrite forallb_forall in KF. rewrite Forall_forall in IH.
    destruct values as [|f values]; cbn [layout] in *; (constructor; [now apply W|]); [constructor|].
    apply Forall_app. split; [|constructor; [reflexivity|constructor]].
    apply Forall_flat_map, Forall_forall. intros v Hin. apply (IH _ Hin); [apply KF, Hin|reflexivity|reflexivity].
  - rewrite forallb_forall in K. rewrite Forall_forall in IH.
    destruct values as [|f values]; cbn [layout] in *; (constructor; [now apply W|]); [constructor|].
    apply Forall_app. split; [|constructor; [reflexivity|constructor]].
    apply Forall_flat_map, Forall_forall. intros v Hin. apply (IH _ Hin); [apply K, Hin|reflexivity|reflexivity].
Qed.

Definition inner (d : nat) (c : fmt_call) : list rstring := map snd (layout d [] (text ",") c).
Lemma map_flat_map {A B C} (f : B -> C) (g : A -> list B) l : map f (flat_map g l) = flat_map (fun x => map f (g x)) l.
Proof. induction l as [|x l IH]; [reflexivity|]. cbn [flat_map]. now rewrite map_app, IH. Qed.
Lemma flat_nonempty {A B} (g : A -> list B) l : l <> [] -> (forall x, In x l -> g x <> []) -> flat_map g l <> [].
Proof.
  destruct l as [|x l]; [easy|]. intros _ H. specialize (H x (or_introl eq_refl)). cbn. destruct (g x); [easy|discriminate].
Qed.
Lemma one_line_first a L : L <> [] -> exists b, one_line (a :: L) = continued a b ++ one_line L.
Proof. destruct L as [|b L]; [easy|]. exists b. reflexivity. Qed.

(** the lines of a value between brackets *)
Definition value_line (d : nat) (p : rstring) (c : fmt_call) : Prop := forall b r,
  one_line (map snd (layout d p (text ",") c) ++ b :: r) = p ++ compact c ++ comma_or_not b ++ one_line (b :: r).
Lemma struct_lines d p q name fields r : fields <> [] ->
  (forall f, In f fields -> let '(k, v) := f in keep_to_line v = true /\ keeps (text k) = true /\ negb (length (text k) =? 0)%nat = true
     /\ value_line (S d) (text k ++ text ": ") v) ->
  one_line (map snd (layout d p q (DebugStruct name fields)) ++ r)
  = p ++ text name ++ text " { " ++ comma_separated (map (fun f => text (fst f) ++ text ": " ++ compact (snd f)) fields)
    ++ [32] ++ one_line ((text "}" ++ q) :: r).
Proof.
  intros Hn H.
  assert (E : map snd (layout d p q (DebugStruct name fields)) ++ r
    = (p ++ text name ++ text " {") :: flat_map (fun f => let '(k, v) := f in map snd (layout (S d) (text k ++ text ": ") (text ",") v)) fields
      ++ (text "}" ++ q) :: r).
  { destruct fields as [|f fields]; [easy|]. change (layout d p q (DebugStruct name (f :: fields))) with
      ((d, p ++ text name ++ text " {") :: flat_map (fun f => let '(k, v) := f in layout (S d) (text k ++ text ": ") (text ",") v) (f :: fields)
       ++ [(d, text "}" ++ q)]).
    cbn [map snd app]. f_equal. rewrite map_app, map_flat_map, <- app_assoc. f_equal.
    apply flat_map_ext. now intros [k v]. }
  rewrite E.
  match goal with |- one_line (?a :: ?L) = _ => destruct (one_line_first a L) as [b Hb] end; [destruct (flat_map _ fields); discriminate|].
  etransitivity; [exact Hb|]. clear Hb E. rewrite (app_assoc p), continued_curly, <- !app_assoc. do 3 f_equal.
  rewrite (items _ (fun f => text (fst f) ++ text ": " ++ compact (snd f))); [reflexivity|exact Hn| |].
  - intros [k v] Hin. specialize (H _ Hin). cbn in H. destruct H as (K & KK & KL & _).
    apply head_free; [exact K|now apply key_first|reflexivity].
  - intros [k v] c t Hin. specialize (H _ Hin). cbn in H. destruct H as (_ & _ & _ & V). cbn [fst snd]. rewrite V.
    now rewrite <- !app_assoc.
Qed.
Lemma value_lines d (o : rstring) c close q values r : values <> [] -> In c [40; 91] -> first_is [41; 93] close = true ->
  (forall v, In v values -> keep_to_line v = true /\ value_line (S d) [] v) ->
  one_line ((o ++ [c]) :: map snd (flat_map (layout (S d) [] (text ",")) values) ++ (close ++ q) :: r)
  = o ++ [c] ++ comma_separated (map compact values) ++ one_line ((close ++ q) :: r).
Proof.
  intros Hn Hc Hz H. rewrite map_flat_map.
  match goal with |- one_line (?a :: ?L) = _ => destruct (one_line_first a L) as [b Hb] end; [destruct (flat_map _ values); discriminate|].
  etransitivity; [exact Hb|]. clear Hb. rewrite continued_open by exact Hc.
  rewrite (items _ compact); [|exact Hn| |].
  - unfold comma_or_not. replace (first_is [41; 93] (close ++ q)) with true by (destruct close; [discriminate Hz|now symmetry]).
    now rewrite <- !app_assoc.
  - intros v Hin. apply head_free; [apply H, Hin|reflexivity|reflexivity].
  - intros v x t Hin. apply (H _ Hin).
Qed.
Lemma compact_struct name fields : fields <> [] -> compact (DebugStruct name fields)
  = text name ++ text " { " ++ comma_separated (map (fun f => text (fst f) ++ text ": " ++ compact (snd f)) fields) ++ text " }".
Proof.
  destruct fields as [|f l]; [easy|]. intros _.
  change (compact (DebugStruct name (f :: l))) with (debug_struct name (map (fun f => let '(k, v) := f in (k, compact v)) (f :: l))).
  unfold debug_struct. rewrite map_map.
  rewrite (map_ext _ (fun f => text (fst f) ++ text ": " ++ compact (snd f))) by now intros [k v]. reflexivity.
Qed.
Lemma compact_tuple name values : values <> [] -> compact (DebugTuple name values)
  = text name ++ text "(" ++ comma_separated (map compact values) ++ text ")".
Proof. destruct values; [easy|reflexivity]. Qed.
Lemma layout_tuple d p q name values : values <> [] -> layout d p q (DebugTuple name values)
  = (d, p ++ text name ++ text "(") :: flat_map (layout (S d) [] (text ",")) values ++ [(d, text ")" ++ q)].
Proof. destruct values; [easy|reflexivity]. Qed.
Lemma layout_list d p q values : values <> [] -> layout d p q (DebugList values)
  = (d, p ++ text "[") :: flat_map (layout (S d) [] (text ",")) values ++ [(d, text "]" ++ q)].
Proof. destruct values; [easy|reflexivity]. Qed.

Lemma fields_keep name fields : keep_to_line (DebugStruct name fields) = true -> forall k v, In (k, v) fields ->
  keep_to_line v = true /\ keeps (text k) = true /\ negb (length (text k) =? 0)%nat = true.
Proof.
  cbn [keep_to_line]. intros K k v Hin. apply andb_true_iff in K as [_ K]. rewrite forallb_forall in K. specialize (K _ Hin).
  cbn in K. apply andb_true_iff in K as [K ?]. apply andb_true_iff in K as [? ?]. auto.
Qed.
Lemma one_value c : keep_to_line c = true -> forall d p, value_line d p c.
Proof.
  induction c as [s|name fields IH|name values IH|values IH] using call_ind; intros K d p b r.
  - cbn [layout map snd app compact]. rewrite one_line_cons, app_assoc, continued_comma, <- !app_assoc. reflexivity.
  - rewrite Forall_forall in IH. destruct (list_eq_nil_dec fields) as [->|Hn].
    + cbn [layout map snd app compact]. rewrite one_line_cons, app_assoc, continued_comma, <- !app_assoc. reflexivity.
    + rewrite struct_lines; [|exact Hn|].
      * rewrite one_line_cons, continued_comma, compact_struct by exact Hn. rewrite <- !app_assoc. reflexivity.
      * intros [k v] Hin. destruct (fields_keep _ _ K _ _ Hin) as (A & B & C). repeat split; auto. apply (IH _ Hin). exact A.
  - rewrite Forall_forall in IH. destruct (list_eq_nil_dec values) as [->|Hn].
    + cbn [layout map snd app compact]. rewrite one_line_cons, app_assoc, continued_comma, <- !app_assoc. reflexivity.
    + rewrite layout_tuple by exact Hn. cbn [map snd]. rewrite map_app, <- app_comm_cons, <- app_assoc. cbn [map snd app].
      change (text "(") with [40] at 1. rewrite app_assoc.
      rewrite (value_lines d (p ++ text name) 40 (text ")") (text ",")); [|exact Hn|now left|reflexivity|].
      * rewrite one_line_cons, continued_comma, compact_tuple by exact Hn. rewrite <- !app_assoc. reflexivity.
      * intros v Hin. cbn [keep_to_line] in K. apply andb_true_iff in K as [_ K]. rewrite forallb_forall in K.
        split; [apply K, Hin|apply (IH _ Hin), K, Hin].
  - rewrite Forall_forall in IH. destruct (list_eq_nil_dec values) as [->|Hn].
    + cbn [layout map snd app compact]. rewrite one_line_cons, app_assoc, continued_comma, <- !app_assoc. reflexivity.
    + rewrite layout_list by exact Hn. cbn [map snd]. rewrite map_app, <- app_comm_cons, <- app_assoc. cbn [map snd app].
      change (text "[") with [91] at 1.
      rewrite (value_lines d p 91 (text "]") (text ",")); [|exact Hn|now (right; left)|reflexivity|].
      * rewrite one_line_cons, continued_comma. cbn [compact]. unfold debug_list. rewrite <- !app_assoc. reflexivity.
      * intros v Hin. cbn [keep_to_line] in K. rewrite forallb_forall in K.
        split; [apply K, Hin|apply (IH _ Hin), K, Hin].
Qed.
Lemma top_value c : keep_to_line c = true -> one_line (map snd (layout 0 [] [] c)) = compact c.
Proof.
  intros K. rewrite <- (app_nil_r (map snd _)). destruct c as [s|name fields|name values|values].
  - cbn. now rewrite !app_nil_r.
  - destruct (list_eq_nil_dec fields) as [->|Hn]; [cbn; now rewrite !app_nil_r|].
    rewrite struct_lines; [|exact Hn|].
    + rewrite compact_struct by exact Hn. reflexivity.
    + intros [k v] Hin. destruct (fields_keep _ _ K _ _ Hin) as (A & B & C). repeat split; auto. now apply one_value.
  - destruct (list_eq_nil_dec values) as [->|Hn]; [cbn; now rewrite !app_nil_r|].
    rewrite layout_tuple by exact Hn. cbn [map snd]. rewrite map_app, app_nil_r. cbn [map snd app].
    change (text "(") with [40] at 1.
    rewrite (value_lines 0 (text name) 40 (text ")") []); [|exact Hn|now left|reflexivity|].
    + rewrite compact_tuple by exact Hn. reflexivity.
    + intros v Hin. cbn [keep_to_line] in K. apply andb_true_iff in K as [_ K]. rewrite forallb_forall in K.
      split; [apply K, Hin|apply one_value, K, Hin].
  - destruct (list_eq_nil_dec values) as [->|Hn]; [reflexivity|].
    rewrite layout_list by exact Hn. cbn [map snd]. rewrite map_app, app_nil_r. cbn [map snd app].
    rewrite (value_lines 0 [] 91 (text "]") []); [|exact Hn|now (right; left)|reflexivity|].
    + cbn [compact]. reflexivity.
    + intros v Hin. cbn [keep_to_line] in K. rewrite forallb_forall in K.
      split; [apply K, Hin|apply one_value, K, Hin].
Qed.
Lemma unbroken_pretty c : keep_to_line c = true -> unbroken (pretty c) = compact c.
Proof.
  intros K. unfold unbroken. rewrite pretty_layout by exact K. rewrite split_join.
  - rewrite map_map. rewrite <- (top_value c K). f_equal. apply map_ext_in. intros l Hl. apply without_indented.
    pose proof (no_indent_all c K 0 [] [] eq_refl eq_refl) as F. rewrite Forall_forall in F. now apply F.
  - intros E. apply map_eq_nil in E. now apply layout_nonempty in E.
  - apply Forall_map. eapply Forall_impl; [|now apply (layout_no_break c K 0 [] [])].
    intros l Hl. unfold indented. now rewrite no_break_app, no_break_repeat.
Qed.

(** ** The calls of the derived implementations keep to their lines *)
Lemma keeps_one_line esc s : Forall (one_line_char esc) s -> first_is [32; 41; 93; 125] s = false -> keeps s = true.
Proof.
  intros H F. apply andb_true_iff. split; [|now rewrite F]. apply forallb_forall. intros c Hc. rewrite Forall_forall in H.
  specialize (H c Hc). unfold one_line_char in H. lia.
Qed.
Lemma digit_first s : Forall is_digit s -> first_is [32; 41; 93; 125] s = false.
Proof. intros [|c r Hc _]; [reflexivity|]. unfold is_digit in Hc. cbn. lia. Qed.
Lemma keep_int n : keep_to_line (int_calls n) = true.
Proof.
  apply (keeps_one_line (fun _ => false)); [apply ol_int|]. destruct (C77_decimal_lem n) as [H _]. now apply digit_first.
Qed.
Lemma keep_bool b : keep_to_line (bool_calls b) = true.
Proof. now destruct b. Qed.
Lemma hex_first fuel : forall n acc, first_is [32; 41; 93; 125] acc = false -> first_is [32; 41; 93; 125] (lower_hex fuel n acc) = false.
Proof.
  induction fuel as [|fuel IH]; intros n acc H; [exact H|]. cbn [lower_hex].
  assert (E : first_is [32; 41; 93; 125] (lower_digit (n mod 16) :: acc) = false).
  { assert (n mod 16 < 16) by lia. cbn. unfold lower_digit. destruct (_ <? 10) eqn:E10; lia. }
  destruct (_ =? 0); auto.
Qed.
Lemma keep_buffer b : keep_to_line (buffer_calls b) = true.
Proof.
  apply (keeps_one_line (fun _ => false)); [apply ol_buffer|]. destruct b as [|x b]; [reflexivity|].
  unfold buffer_debug. cbn [flat_map]. unfold pad2.
  pose proof (hex_first 2 x [] eq_refl) as H.
  destruct (2 - length (lower_hex 2 x []))%nat as [|n] eqn:E; [|reflexivity]. cbn [repeat app].
  destruct (lower_hex 2 x []) as [|c r]; [cbn in E; lia|exact H].
Qed.
Lemma keep_str esc s : keep_to_line (str_calls esc s) = true.
Proof. apply (keeps_one_line esc); [apply ol_str|reflexivity]. Qed.
Lemma keep_flags f : keep_to_line (flags_calls f) = true.
Proof.
  apply (keeps_one_line (fun _ => false)); [apply ol_flags|]. rewrite names_of_eq. unfold names_of.
  assert (A : forallb (fun b : N * string => negb (first_is [32; 41; 93; 125] (text (snd b))) && negb (length (text (snd b)) =? 0)%nat) flag_names = true)
    by (vm_compute; reflexivity).
  rewrite forallb_forall in A.
  destruct (filter _ flag_names) as [|b l] eqn:E; [reflexivity|].
  assert (Hb : In b flag_names) by (eapply (proj1 (filter_In _ _ _)); rewrite E; now left).
  specialize (A b Hb). apply andb_true_iff in A as [A1 A2]. cbn [map]. set (t := text (snd b)) in *. clearbody t.
  destruct t as [|c r]; [discriminate A2|]. apply negb_true_iff in A1. destruct l; exact A1.
Qed.
Lemma keep_vec {A} (p : A -> fmt_call) l : (forall x, keep_to_line (p x) = true) -> keep_to_line (vec_calls p l) = true.
Proof. intros H. cbn. apply forallb_forall. intros x Hx. apply in_map_iff in Hx as (y & <- & _). apply H. Qed.
Lemma keep_option {A} (p : A -> fmt_call) o : (forall x, keep_to_line (p x) = true) -> keep_to_line (option_calls p o) = true.
Proof. intros H. destruct o as [a|]; [|reflexivity]. cbn. now rewrite H. Qed.
Lemma keep_struct name fields : keeps (text name) = true -> negb (length (text name) =? 0)%nat = true ->
  Forall (fun f => keeps (text (fst f)) = true /\ negb (length (text (fst f)) =? 0)%nat = true /\ keep_to_line (snd f) = true) fields ->
  keep_to_line (DebugStruct name fields) = true.
Proof.
  intros A B H. cbn [keep_to_line]. rewrite A, B. cbn [andb]. apply forallb_forall. intros [k v] Hin. rewrite Forall_forall in H.
  destruct (H _ Hin) as (C & D & E). cbn [fst snd] in *. now rewrite C, D, E.
Qed.
Lemma keep_tuple name values : keeps (text name) = true -> negb (length (text name) =? 0)%nat = true ->
  Forall (fun v => keep_to_line v = true) values -> keep_to_line (DebugTuple name values) = true.
Proof.
  intros A B H. cbn [keep_to_line]. rewrite A, B. cbn [andb]. apply forallb_forall. now apply Forall_forall.
Qed.
Ltac keep :=
  lazymatch goal with
  | |- keep_to_line (DebugStruct _ _) = true => apply keep_struct; [reflexivity|reflexivity|]; keep
  | |- keep_to_line (DebugTuple _ _) = true => apply keep_tuple; [reflexivity|reflexivity|]; keep
  | |- keep_to_line (int_calls _) = true => apply keep_int
  | |- keep_to_line (bool_calls _) = true => apply keep_bool
  | |- keep_to_line (buffer_calls _) = true => apply keep_buffer
  | |- keep_to_line (str_calls _ _) = true => apply keep_str
  | |- keep_to_line (flags_calls _) = true => apply keep_flags
  | |- keep_to_line (option_calls _ _) = true => apply keep_option; intros ?; keep
  | |- keep_to_line (vec_calls _ _) = true => apply keep_vec; intros ?; keep
  | |- keep_to_line (Write _) = true => reflexivity
  | |- keep_to_line _ = true => idtac
  | |- Forall _ (_ :: _) => apply Forall_cons; cbn [fst snd]; keep
  | |- Forall _ [] => apply Forall_nil
  | |- _ /\ _ => apply conj; keep
  | |- _ => reflexivity
  end.
Lemma keep_version v : keep_to_line (version_calls v) = true.
Proof. unfold version_calls. keep. Qed.
Lemma keep_av_pair esc a : keep_to_line (av_pair_calls esc a) = true.
Proof. destruct a; unfold av_pair_calls, av_flags_calls, filetime_calls, single_host_calls; keep. Qed.
Lemma keep_lm c : keep_to_line (lm_challenge_calls c) = true.
Proof. destruct c; unfold lm_challenge_calls; keep. Qed.
Lemma keep_nt esc c : keep_to_line (nt_challenge_calls esc c) = true.
Proof. destruct c; unfold nt_challenge_calls, ntv2_calls, filetime_calls; keep; first [apply keep_av_pair]. Qed.
Lemma keep_negotiate esc n : keep_to_line (negotiate_calls esc n) = true.
Proof. unfold negotiate_calls. keep; apply keep_version. Qed.
Lemma keep_challenge esc c : keep_to_line (challenge_calls esc c) = true.
Proof. unfold challenge_calls. keep; first [apply keep_av_pair|apply keep_version]. Qed.
Lemma keep_authenticate esc a : keep_to_line (authenticate_calls esc a) = true.
Proof. unfold authenticate_calls. keep; first [apply keep_lm|apply keep_nt|apply keep_version]. Qed.
Lemma keep_state esc s : keep_to_line (client_state_calls esc s) = true.
Proof. destruct s; unfold client_state_calls; keep; first [apply keep_negotiate|apply keep_challenge|apply keep_authenticate]. Qed.

(** ** [compact] of the calls is the form of [Print.v] *)
Lemma compact_option {A} (p : A -> fmt_call) (g : A -> rstring) o : (forall x, compact (p x) = g x) ->
  compact (option_calls p o) = option_debug g o.
Proof. intros H. destruct o as [a|]; [|reflexivity]. cbn. now rewrite H. Qed.
Lemma compact_vec {A} (p : A -> fmt_call) (g : A -> rstring) l : (forall x, compact (p x) = g x) ->
  compact (vec_calls p l) = vec_debug g l.
Proof.
  intros H. cbn [compact vec_calls]. unfold vec_debug. f_equal. rewrite map_map. now apply map_ext.
Qed.
Lemma cstruct name f fields : compact (DebugStruct name (f :: fields))
  = debug_struct name (map (fun f => (fst f, compact (snd f))) (f :: fields)).
Proof.
  change (compact (DebugStruct name (f :: fields))) with (debug_struct name (map (fun f => let '(k, v) := f in (k, compact v)) (f :: fields))).
  f_equal. apply map_ext. now intros [k v].
Qed.
Lemma ctuple name v values : compact (DebugTuple name (v :: values)) = debug_tuple name (map compact (v :: values)).
Proof. reflexivity. Qed.
Lemma cwrite s : compact (Write s) = s.
Proof. reflexivity. Qed.
Lemma cint n : compact (int_calls n) = int_debug n.
Proof. reflexivity. Qed.
Lemma cbool b : compact (bool_calls b) = bool_debug b.
Proof. reflexivity. Qed.
Lemma cbuffer b : compact (buffer_calls b) = buffer_debug b.
Proof. reflexivity. Qed.
Lemma cflags f : compact (flags_calls f) = flags_debug f.
Proof. reflexivity. Qed.
Lemma cstr esc s : compact (str_calls esc s) = str_debug esc s.
Proof. reflexivity. Qed.
Ltac creduce := repeat (rewrite cstruct || rewrite ctuple; cbn [map fst snd]); rewrite ?cint, ?cbool, ?cbuffer, ?cflags, ?cstr, ?cwrite.
Lemma compact_version v : compact (version_calls v) = version_debug v.
Proof. unfold version_calls, version_debug. creduce. reflexivity. Qed.
Lemma compact_field v : compact (field_calls v) = field_debug v.
Proof. unfold field_calls, field_debug. creduce. reflexivity. Qed.
Lemma compact_signature v : compact (signature_calls v) = signature_debug v.
Proof. unfold signature_calls, signature_debug. creduce. reflexivity. Qed.
Lemma compact_filetime v : compact (filetime_calls v) = filetime_debug v.
Proof. unfold filetime_calls, filetime_debug. creduce. reflexivity. Qed.
Lemma compact_av_flags v : compact (av_flags_calls v) = av_flags_debug v.
Proof. unfold av_flags_calls, av_flags_debug. creduce. reflexivity. Qed.
Lemma compact_single_host h : compact (single_host_calls h) = single_host_debug h.
Proof.
  unfold single_host_calls, single_host_debug. creduce. rewrite !(compact_vec int_calls int_debug) by apply cint. reflexivity.
Qed.
Lemma compact_av_pair esc a : compact (av_pair_calls esc a) = av_pair_debug esc a.
Proof.
  destruct a; unfold av_pair_calls, av_pair_debug; creduce;
    rewrite ?compact_single_host, ?compact_filetime, ?compact_av_flags, ?(compact_vec int_calls int_debug) by apply cint; reflexivity.
Qed.
Lemma compact_lm c : compact (lm_challenge_calls c) = lm_challenge_debug c.
Proof. destruct c; unfold lm_challenge_calls, lm_challenge_debug; creduce; reflexivity. Qed.
Lemma compact_ntv2 esc c : compact (ntv2_calls esc c) = ntv2_debug esc c.
Proof.
  unfold ntv2_calls, ntv2_debug. creduce. rewrite compact_filetime.
  rewrite (compact_vec (av_pair_calls esc) (av_pair_debug esc)) by apply compact_av_pair. reflexivity.
Qed.
Lemma compact_nt esc c : compact (nt_challenge_calls esc c) = nt_challenge_debug esc c.
Proof. destruct c; unfold nt_challenge_calls, nt_challenge_debug; creduce; rewrite ?compact_ntv2; reflexivity. Qed.
Lemma compact_negotiate esc n : compact (negotiate_calls esc n) = negotiate_debug esc n.
Proof.
  unfold negotiate_calls, negotiate_debug. creduce.
  rewrite !(compact_option (str_calls esc) (str_debug esc)) by apply cstr.
  rewrite (compact_option version_calls version_debug) by apply compact_version. reflexivity.
Qed.
Lemma compact_challenge esc c : compact (challenge_calls esc c) = challenge_debug esc c.
Proof.
  unfold challenge_calls, challenge_debug. creduce.
  rewrite !(compact_option (str_calls esc) (str_debug esc)) by apply cstr.
  rewrite (compact_option version_calls version_debug) by apply compact_version.
  rewrite (compact_vec (av_pair_calls esc) (av_pair_debug esc)) by apply compact_av_pair. reflexivity.
Qed.
Lemma compact_authenticate esc a : compact (authenticate_calls esc a) = authenticate_debug esc a.
Proof.
  unfold authenticate_calls, authenticate_debug. creduce.
  rewrite !(compact_option (str_calls esc) (str_debug esc)) by apply cstr.
  rewrite !(compact_option buffer_calls buffer_debug) by apply cbuffer.
  rewrite (compact_option version_calls version_debug) by apply compact_version.
  rewrite (compact_option lm_challenge_calls lm_challenge_debug) by apply compact_lm.
  rewrite (compact_option (nt_challenge_calls esc) (nt_challenge_debug esc)) by apply compact_nt. reflexivity.
Qed.
Lemma compact_state esc s : compact (client_state_calls esc s) = client_state_debug esc s.
Proof.
  destruct s; unfold client_state_calls, client_state_debug; creduce;
    rewrite ?compact_negotiate, ?compact_challenge, ?compact_authenticate; reflexivity.
Qed.

(** ** C90 *)
(** Every line is indented by its depth; nothing in a message adds a line or moves one. *)
Lemma C90_layout_lem : forall esc,
  (forall n, negotiate_pretty esc n = join_lines (map indented (layout 0 [] [] (negotiate_calls esc n))))
  /\ (forall c, challenge_pretty esc c = join_lines (map indented (layout 0 [] [] (challenge_calls esc c))))
  /\ (forall a, authenticate_pretty esc a = join_lines (map indented (layout 0 [] [] (authenticate_calls esc a))))
  /\ (forall s, client_state_pretty esc s = join_lines (map indented (layout 0 [] [] (client_state_calls esc s)))).
Proof.
  intros esc. repeat split; intros x; apply pretty_layout;
    first [apply keep_negotiate|apply keep_challenge|apply keep_authenticate|apply keep_state].
Qed.
(** Taking the line breaks out gives the form [{:?}]. *)
Lemma C90_unbroken_lem : forall esc,
  (forall n, unbroken (negotiate_pretty esc n) = negotiate_debug esc n)
  /\ (forall c, unbroken (challenge_pretty esc c) = challenge_debug esc c)
  /\ (forall a, unbroken (authenticate_pretty esc a) = authenticate_debug esc a)
  /\ (forall s, unbroken (client_state_pretty esc s) = client_state_debug esc s).
Proof.
  intros esc. split; [|split; [|split]]; intros x.
  - rewrite <- compact_negotiate. apply unbroken_pretty, keep_negotiate.
  - rewrite <- compact_challenge. apply unbroken_pretty, keep_challenge.
  - rewrite <- compact_authenticate. apply unbroken_pretty, keep_authenticate.
  - rewrite <- compact_state. apply unbroken_pretty, keep_state.
Qed.
Lemma C90_structures_unbroken_lem : forall esc,
  (forall x, unbroken (pretty (version_calls x)) = version_debug x)
  /\ (forall x, unbroken (pretty (field_calls x)) = field_debug x)
  /\ (forall x, unbroken (pretty (filetime_calls x)) = filetime_debug x)
  /\ (forall x, unbroken (pretty (single_host_calls x)) = single_host_debug x)
  /\ (forall x, unbroken (pretty (signature_calls x)) = signature_debug x)
  /\ (forall x, unbroken (pretty (av_flags_calls x)) = av_flags_debug x)
  /\ (forall x, unbroken (pretty (av_pair_calls esc x)) = av_pair_debug esc x)
  /\ (forall x, unbroken (pretty (lm_challenge_calls x)) = lm_challenge_debug x)
  /\ (forall x, unbroken (pretty (nt_challenge_calls esc x)) = nt_challenge_debug esc x).
Proof.
  intros esc. repeat apply conj; intros x.
  - rewrite <- compact_version. apply unbroken_pretty, keep_version.
  - rewrite <- compact_field. apply unbroken_pretty. unfold field_calls. keep.
  - rewrite <- compact_filetime. apply unbroken_pretty. unfold filetime_calls. keep.
  - rewrite <- compact_single_host. apply unbroken_pretty. unfold single_host_calls. keep.
  - rewrite <- compact_signature. apply unbroken_pretty. unfold signature_calls. keep.
  - rewrite <- compact_av_flags. apply unbroken_pretty. unfold av_flags_calls. keep.
  - rewrite <- compact_av_pair. apply unbroken_pretty, keep_av_pair.
  - rewrite <- compact_lm. apply unbroken_pretty, keep_lm.
  - rewrite <- compact_nt. apply unbroken_pretty, keep_nt.
Qed.
(** Messages printed alike are equal. *)
Lemma C90_told_apart_lem : forall esc,
  (forall m n, valid_negotiate m -> valid_negotiate n -> negotiate_pretty esc m = negotiate_pretty esc n -> m = n)
  /\ (forall b c, valid_challenge b -> valid_challenge c -> challenge_pretty esc b = challenge_pretty esc c -> b = c)
  /\ (forall a b, valid_authenticate a -> valid_authenticate b -> authenticate_pretty esc a = authenticate_pretty esc b -> a = b)
  /\ (forall s t, valid_state s -> valid_state t -> client_state_pretty esc s = client_state_pretty esc t -> s = t).
Proof.
  intros esc. destruct (C90_unbroken_lem esc) as (U1 & U2 & U3 & U4), (C79_told_apart_lem esc) as (T1 & T2 & T3 & T4).
  split; [|split; [|split]]; intros x y Hx Hy E; apply (f_equal unbroken) in E;
    rewrite ?U1, ?U2, ?U3, ?U4 in E; eauto.
Qed.
(** The number of lines of a NEGOTIATE: six, two more for each name and seven more for a version. *)
Lemma C90_negotiate_lines_lem : forall esc n, length (split_lines (negotiate_pretty esc n))
  = (6 + (if n_domain n then 2 else 0) + (if n_workstation n then 2 else 0) + (if n_version n then 7 else 0))%nat.
Proof.
  intros esc n. rewrite (proj1 (C90_layout_lem esc)), split_join.
  - rewrite map_length. unfold negotiate_calls. destruct (n_domain n), (n_workstation n), (n_version n); reflexivity.
  - intros E. apply map_eq_nil in E. now apply layout_nonempty in E.
  - apply Forall_map. eapply Forall_impl; [|apply (layout_no_break _ (keep_negotiate esc n) 0 [] [] eq_refl eq_refl)].
    intros l Hl. unfold indented. now rewrite no_break_app, no_break_repeat.
Qed.
Fixpoint depths (d : nat) (c : fmt_call) : list nat :=
  match c with
  | Write _ | DebugStruct _ [] | DebugTuple _ [] | DebugList [] => [d]
  | DebugStruct _ fields => d :: flat_map (fun f => let '(k, v) := f in depths (S d) v) fields ++ [d]
  | DebugTuple _ values | DebugList values => d :: flat_map (depths (S d)) values ++ [d]
  end.
Lemma flat_map_ext_in {A B} (g h : A -> list B) l : (forall x, In x l -> g x = h x) -> flat_map g l = flat_map h l.
Proof.
  induction l as [|x l IH]; intros H; [reflexivity|]. cbn [flat_map]. rewrite IH by (intros; apply H; now right).
  now rewrite H by now left.
Qed.
Lemma layout_depths c : forall d p q, map fst (layout d p q c) = depths d c.
Proof.
  induction c as [s|name fields IH|name values IH|values IH] using call_ind; intros d p q; [reflexivity| | |]; rewrite Forall_forall in IH.
  - destruct fields as [|f fields]; [reflexivity|]. set (l := f :: fields) in *.
    change (d :: map fst (flat_map (fun f => let '(k, v) := f in layout (S d) (text k ++ text ": ") (text ",") v) l ++ [(d, text "}" ++ q)])
            = d :: flat_map (fun f => let '(k, v) := f in depths (S d) v) l ++ [d]).
    rewrite map_app, map_flat_map. do 2 f_equal. apply flat_map_ext_in. intros [k v] I. apply (IH _ I).
  - destruct values as [|f values]; [reflexivity|]. set (l := f :: values) in *.
    change (d :: map fst (flat_map (layout (S d) [] (text ",")) l ++ [(d, text ")" ++ q)]) = d :: flat_map (depths (S d)) l ++ [d]).
    rewrite map_app, map_flat_map. do 2 f_equal. apply flat_map_ext_in. intros v I. apply (IH _ I).
  - destruct values as [|f values]; [reflexivity|]. set (l := f :: values) in *.
    change (d :: map fst (flat_map (layout (S d) [] (text ",")) l ++ [(d, text "]" ++ q)]) = d :: flat_map (depths (S d)) l ++ [d]).
    rewrite map_app, map_flat_map. do 2 f_equal. apply flat_map_ext_in. intros v I. apply (IH _ I).
Qed.
Lemma margins c : keep_to_line c = true -> map margin (split_lines (pretty c)) = map (Nat.mul 4) (depths 0 c).
Proof.
  intros K. rewrite (pretty_layout c K), split_join.
  - rewrite map_map, <- (layout_depths c 0 [] []), map_map. apply map_ext_in. intros l Hl.
    pose proof (no_indent_all c K 0 [] [] eq_refl eq_refl) as F. rewrite Forall_forall in F.
    unfold margin. rewrite without_indented by now apply F.
    unfold indented. rewrite app_length, repeat_length. lia.
  - intros E. apply map_eq_nil in E. now apply layout_nonempty in E.
  - apply Forall_map. eapply Forall_impl; [|now apply (layout_no_break c K 0 [] [])].
    intros l Hl. unfold indented. now rewrite no_break_app, no_break_repeat.
Qed.
Lemma depths_vec {A} (p : A -> fmt_call) g l d : (forall x d, depths d (p (g x)) = depths d (p x)) ->
  depths d (vec_calls p (map g l)) = depths d (vec_calls p l).
Proof.
  intros H. unfold vec_calls. destruct l as [|x l]; [reflexivity|]. cbn [map depths]. do 2 f_equal.
  cbn [flat_map]. rewrite H. f_equal. induction l as [|y l IH]; [reflexivity|]. cbn [map flat_map]. now rewrite H, IH.
Qed.
Lemma depths_av esc f a d : depths d (av_pair_calls esc (av_with_strings f a)) = depths d (av_pair_calls esc a).
Proof. destruct a; reflexivity. Qed.
(** Whatever stands in the place of the strings of a message: it has as many lines, and they are
    indented the same way. *)
Lemma C90_strings_lem : forall esc f,
  (forall n, map margin (split_lines (negotiate_pretty esc (negotiate_with_strings f n))) = map margin (split_lines (negotiate_pretty esc n)))
  /\ (forall c, map margin (split_lines (challenge_pretty esc (challenge_with_strings f c))) = map margin (split_lines (challenge_pretty esc c)))
  /\ (forall a, map margin (split_lines (authenticate_pretty esc (authenticate_with_strings f a)))
                = map margin (split_lines (authenticate_pretty esc a))).
Proof.
  intros esc f. split; [|split]; intros m; unfold negotiate_pretty, challenge_pretty, authenticate_pretty;
    rewrite !margins by (apply keep_negotiate || apply keep_challenge || apply keep_authenticate); f_equal.
  - destruct m as [? [?|] [?|] ?]; reflexivity.
  - destruct m as [tn fl sc ti v]. unfold challenge_calls, challenge_with_strings.
    cbn [ch_target_name ch_flags ch_server_challenge ch_target_infos ch_version depths flat_map].
    rewrite (depths_vec (av_pair_calls esc) (av_with_strings f) ti 1 (fun x d => depths_av esc f x d)).
    destruct tn; reflexivity.
  - destruct m as [lm nt dom us ws sk fl v mic ek]. unfold authenticate_calls, authenticate_with_strings.
    cbn [a_lm a_nt a_domain a_user a_workstation a_session_key a_flags a_version a_mic a_exported_key depths flat_map].
    assert (N : depths 1 (option_calls (nt_challenge_calls esc) (match nt with Some c => Some (nt_with_strings f c) | None => None end))
              = depths 1 (option_calls (nt_challenge_calls esc) nt)).
    { destruct nt as [[r|c]|]; [reflexivity| |reflexivity].
      unfold nt_with_strings. cbn [option_calls nt_challenge_calls ntv2_calls nt_timestamp nt_client_challenge nt_target_infos].
      unfold option_calls, nt_challenge_calls, ntv2_calls. cbn [nt_timestamp nt_client_challenge nt_target_infos depths flat_map].
      rewrite (depths_vec (av_pair_calls esc) (av_with_strings f) (nt_target_infos c) 4 (fun x d => depths_av esc f x d)).
      reflexivity. }
    rewrite N. destruct dom, us, ws; reflexivity.
Qed.
Example C90_ex_lem : let n := mkNegotiate 33554433 (Some [68; 10; 125]) None (Some (mkVersion 10 0 17763 15)) in
  valid_negotiate n
  /\ map (fun l => (N.of_nat (length l - length (without_indent l)), without_indent l))
       (split_lines (negotiate_pretty (fun _ => false) n))
     = [(0, text "Negotiate {");
        (4, text "negotiate_flags: NTLMSSP_NEGOTIATE_VERSION|NTLMSSP_NEGOTIATE_UNICODE,");
        (4, text "domain_name: Some(");
        (8, [34] ++ text "D\n}" ++ [34] ++ text ",");
        (4, text "),");
        (4, text "workstation: None,");
        (4, text "version: Some(");
        (8, text "Version {");
        (12, text "major: 10,"); (12, text "minor: 0,"); (12, text "build: 17763,"); (12, text "revision_count: 15,");
        (8, text "},");
        (4, text "),");
        (0, text "}")].
Proof. split; [closed_valid|vm_compute; reflexivity]. Qed.
