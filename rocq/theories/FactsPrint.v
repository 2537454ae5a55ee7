(** Facts about the derived [Debug] forms. *)
From Coq Require Import ZifyBool ZifyNat ZifyN Ascii String.
From Verif Require Import Base Nom Unicode Wire Structures Prims Messages Crypto Client Debug Log Print Spec SpecDebug SpecLog SpecPrint
  Lib Samples FactsDebug FactsLog.

(** ** Printed forms that can be told apart in context *)
(** the characters that can follow a printed value *)
Definition stop (c : N) : bool := (c =? 44) || (c =? 32) || (c =? 41) || (c =? 93) || (c =? 125).
Definition ends (s : rstring) : Prop := match s with [] => True | c :: _ => stop c = true end.
Definition apart {A} (D : A -> Prop) (p : A -> rstring) : Prop :=
  forall x y s t, D x -> D y -> ends s -> ends t -> p x ++ s = p y ++ t -> x = y /\ s = t.

Lemma apart_inj {A} (D : A -> Prop) p x y : apart D p -> D x -> D y -> p x = p y -> x = y.
Proof. intros H Hx Hy E. apply (H x y [] [] Hx Hy I I). now rewrite !app_nil_r. Qed.
Lemma plain_split u v s t : forallb (fun c => negb (stop c)) u = true -> forallb (fun c => negb (stop c)) v = true ->
  ends s -> ends t -> u ++ s = v ++ t -> u = v /\ s = t.
Proof.
  revert v. induction u as [|c u IH]; intros [|d v] Hu Hv Hs Ht E; cbn [app forallb] in *.
  - auto.
  - subst s. cbn in Hs. rewrite Hs in Hv. discriminate.
  - subst t. cbn in Ht. rewrite Ht in Hu. discriminate.
  - injection E as -> E. apply andb_prop in Hu as [_ Hu]. apply andb_prop in Hv as [_ Hv].
    destruct (IH v Hu Hv Hs Ht E) as [-> ->]. auto.
Qed.
Lemma apart_plain {A} (D : A -> Prop) p : (forall x, D x -> forallb (fun c => negb (stop c)) (p x) = true) ->
  (forall x y, D x -> D y -> p x = p y -> x = y) -> apart D p.
Proof.
  intros Hp Hi x y s t Hx Hy Hs Ht E. apply plain_split in E as [E ->]; auto.
Qed.
Lemma int_apart : apart (fun _ => True) int_debug.
Proof.
  apply apart_plain.
  - intros n _. destruct (C77_decimal_lem n) as [H _]. apply forallb_forall. intros c Hc. rewrite Forall_forall in H.
    specialize (H c Hc). unfold is_digit in H. unfold stop. lia.
  - intros n m _ _ E. unfold int_debug in E. destruct (C77_decimal_lem n) as (_ & <- & _). rewrite E. apply C77_decimal_lem.
Qed.
Lemma bool_apart : apart (fun _ => True) bool_debug.
Proof. apply apart_plain; [now intros []|intros [] []; now try discriminate]. Qed.
Lemma two_digits_plain x : is_u8 x -> forallb (fun c => negb (stop c)) (two_digits x) = true.
Proof.
  assert (A : forallb (fun n => forallb (fun c => negb (stop c)) (two_digits (N.of_nat n))) (seq 0 256) = true)
    by (vm_compute; reflexivity).
  intros H. rewrite forallb_forall in A. specialize (A (N.to_nat x)). rewrite N2Nat.id in A. apply A.
  apply in_seq. unfold is_u8 in H. lia.
Qed.
Lemma buffer_apart n : apart (is_buffer n) buffer_debug.
Proof.
  apply apart_plain.
  - intros b [_ Hb]. rewrite (proj1 (C47_buffer_printed_lem b Hb)). clear n. induction Hb as [|x b Hx _ IH]; [reflexivity|].
    cbn [flat_map]. rewrite forallb_app, IH, two_digits_plain by exact Hx. reflexivity.
  - intros b c [_ Hb] [_ Hc]. now apply C47_buffers_told_apart_lem.
Qed.
Lemma bar_plain l : (forall x, In x l -> forallb (fun c => negb (stop c)) x = true) ->
  forallb (fun c => negb (stop c)) (bar_separated l) = true.
Proof.
  induction l as [|x l IH]; intros H; [reflexivity|]. destruct l as [|y l]; [apply H; now left|].
  change (bar_separated (x :: y :: l)) with (x ++ BAR :: bar_separated (y :: l)).
  rewrite forallb_app. cbn [forallb]. rewrite IH; [|intros z Hz; apply H; now right]. rewrite H by now left. reflexivity.
Qed.
Lemma flags_apart : apart is_u32 flags_debug.
Proof.
  apply apart_plain; [|intros f g; apply C46_flags_told_apart_lem].
  intros f _. rewrite C46_flags_printed_lem. apply bar_plain. intros x Hx. apply in_map_iff in Hx as (b & <- & Hb).
  apply filter_In in Hb as [Hb _].
  assert (A : forallb (fun b : N * string => forallb (fun c => negb (stop c)) (text (snd b))) flag_names = true)
    by (vm_compute; reflexivity).
  rewrite forallb_forall in A. exact (A b Hb).
Qed.
Lemma app_text s (u v : rstring) : text s ++ u = text s ++ v -> u = v.
Proof. apply app_inv_head. Qed.
Lemma option_apart {A} (D : A -> Prop) p : apart D p -> apart (valid_opt D) (option_debug p).
Proof.
  intros H [x|] [y|] s t Hx Hy Hs Ht E; unfold option_debug, debug_tuple in E; cbn [comma_separated] in E;
    [|discriminate E|discriminate E|].
  - rewrite <- !app_assoc in E. do 2 apply app_text in E. apply H in E as [-> E]; try assumption; try reflexivity.
    apply app_text in E. auto.
  - apply app_text in E. auto.
Qed.
Lemma list_apart_tail {A} (D : A -> Prop) p : apart D p -> forall x l y m s t, D x -> D y -> Forall D l -> Forall D m ->
  comma_separated (map p (x :: l)) ++ text "]" ++ s = comma_separated (map p (y :: m)) ++ text "]" ++ t ->
  x :: l = y :: m /\ s = t.
Proof.
  intros H x l. revert x. induction l as [|x' l IH]; intros x y m s t Hx Hy Hl Hm E; destruct m as [|y' m]; cbn [map] in E.
  - cbn [comma_separated] in E. apply H in E as [-> E]; try assumption; try reflexivity. apply app_text in E. now subst.
  - cbn [comma_separated] in E. rewrite <- !app_assoc in E. apply H in E as [_ E]; try assumption; try reflexivity. discriminate E.
  - cbn [comma_separated] in E. rewrite <- !app_assoc in E. apply H in E as [_ E]; try assumption; try reflexivity. discriminate E.
  - change (comma_separated (p x :: p x' :: map p l)) with (p x ++ text ", " ++ comma_separated (map p (x' :: l))) in E.
    change (comma_separated (p y :: p y' :: map p m)) with (p y ++ text ", " ++ comma_separated (map p (y' :: m))) in E.
    rewrite <- !app_assoc in E. apply H in E as [-> E]; try assumption; try reflexivity. apply app_text in E.
    inversion_clear Hl. inversion_clear Hm. apply IH in E as [E ->]; try assumption. rewrite E. auto.
Qed.
(** a form that does not start with a closing bracket *)
Definition opens (s : rstring) : Prop := match s with [] => False | c :: _ => c <> 93 end.
Lemma comma_opens l s : opens (hd [] l) -> opens (comma_separated l ++ s).
Proof. destruct l as [|x [|y l]]; cbn [hd comma_separated]; intros H; [destruct H|now destruct x|now destruct x]. Qed.
Lemma vec_apart {A} (D : A -> Prop) p : apart D p -> (forall x, D x -> opens (p x)) -> apart (Forall D) (vec_debug p).
Proof.
  intros H Ho l m s t Hl Hm Hs Ht E. unfold vec_debug, debug_list in E. rewrite <- !app_assoc in E. apply app_text in E.
  destruct l as [|x l], m as [|y m].
  - apply app_text in E. auto.
  - exfalso. inversion_clear Hm. pose proof (comma_opens (map p (y :: m)) (text "]" ++ t)) as O. rewrite <- E in O.
    apply O; [cbn; auto|reflexivity].
  - exfalso. inversion_clear Hl. pose proof (comma_opens (map p (x :: l)) (text "]" ++ s)) as O. rewrite E in O.
    apply O; [cbn; auto|reflexivity].
  - inversion_clear Hl. inversion_clear Hm. now apply (list_apart_tail D p H) in E.
Qed.
Lemma int_opens n : opens (int_debug n).
Proof.
  unfold int_debug. destruct (C77_decimal_lem n) as (H1 & H2 & H3 & H4). destruct (decimal n) as [|c r] eqn:E.
  - destruct (N.eq_dec n 0) as [Z|Z]; [now specialize (H4 Z)|]. now apply (H3 Z).
  - inversion_clear H1 as [|? ? Hc _]. unfold is_digit in Hc. cbn. lia.
Qed.
Lemma ints_apart : apart (fun _ => True) (vec_debug int_debug).
Proof.
  intros l m s t _ _. assert (T : forall l : list N, Forall (fun _ => True) l) by (intros; now apply Forall_forall).
  apply (vec_apart _ _ int_apart (fun n _ => int_opens n)); auto.
Qed.

(** ** Strings *)
Definition is_hex (c : N) : Prop := 48 <= c <= 57 \/ 97 <= c <= 102.
Definition hex_value (s : rstring) : N := fold_left (fun v c => v * 16 + (if c <? 58 then c - 48 else c - 87)) s 0.
Lemma hex_digit_value d : d < 16 -> (if lower_digit d <? 58 then lower_digit d - 48 else lower_digit d - 87) = d.
Proof. intros H. unfold lower_digit. destruct (d <? 10) eqn:E; destruct (_ <? 58) eqn:F; lia. Qed.
Lemma lower_hex_spec fuel : forall n acc, n < 16 ^ N.succ (N.of_nat fuel) ->
  exists d, lower_hex (S fuel) n acc = d ++ acc /\ Forall is_hex d /\ hex_value d = n.
Proof.
  assert (D : forall n, is_hex (lower_digit (n mod 16))).
  { intros n. assert (n mod 16 < 16) by lia. unfold lower_digit, is_hex. destruct (_ <? 10) eqn:E; lia. }
  assert (V : forall n, n < 16 -> hex_value [lower_digit (n mod 16)] = n).
  { intros n Hn. unfold hex_value. cbn [fold_left]. rewrite hex_digit_value by lia. lia. }
  induction fuel as [|fuel IH]; intros n acc Hn;
  match goal with |- context [lower_hex (S ?f) n acc] => change (lower_hex (S f) n acc) with
      (let acc := lower_digit (n mod 16) :: acc in if n / 16 =? 0 then acc else lower_hex f (n / 16) acc) end; cbv zeta.
  - assert (n < 16) by exact Hn. replace (n / 16 =? 0) with true by lia. exists [lower_digit (n mod 16)].
    split; [reflexivity|]. split; [constructor; [apply D|constructor]|apply V; lia].
  - destruct (n / 16 =? 0) eqn:E.
    + exists [lower_digit (n mod 16)]. split; [reflexivity|]. split; [constructor; [apply D|constructor]|apply V; lia].
    + destruct (IH (n / 16) (lower_digit (n mod 16) :: acc)) as (d & H1 & H2 & H3).
      { rewrite Nat2N.inj_succ, N.pow_succ_r' in Hn. lia. }
      exists (d ++ [lower_digit (n mod 16)]). rewrite H1, <- app_assoc. split; [reflexivity|].
      split; [apply Forall_app; split; [exact H2|constructor; [apply D|constructor]]|].
      unfold hex_value in *. rewrite fold_left_app, H3. cbn [fold_left]. rewrite hex_digit_value by lia. lia.
Qed.
Lemma hex_split u v s t : Forall is_hex u -> Forall is_hex v -> u ++ 125 :: s = v ++ 125 :: t -> u = v /\ s = t.
Proof.
  revert v. induction u as [|c u IH]; intros [|d v] Hu Hv E; cbn [app] in E.
  - injection E as ->. auto.
  - injection E as <- E. inversion_clear Hv as [|? ? Hd _]. unfold is_hex in Hd. lia.
  - injection E as -> E. inversion_clear Hu as [|? ? Hd _]. unfold is_hex in Hd. lia.
  - injection E as -> E. inversion_clear Hu. inversion_clear Hv. destruct (IH v) as [-> ->]; auto.
Qed.
Inductive char_form (esc : N -> bool) (c : N) : rstring -> Prop :=
| cf_short k : In (c, k) [(0, 48); (9, 116); (13, 114); (10, 110); (34, 34); (92, 92)] -> char_form esc c [92; k]
| cf_code : esc c = true -> char_form esc c (text "\u{" ++ lower_hex 6 c [] ++ [125])
| cf_self : c <> 34 -> c <> 92 -> char_form esc c [c].
Lemma char_debug_form esc c : char_form esc c (char_debug esc c).
Proof.
  assert (G : c <> 34 -> c <> 92 -> char_form esc c (if esc c then text "\u{" ++ lower_hex 6 c [] ++ text "}" else [c])).
  { intros. destruct (esc c) eqn:E; [now apply cf_code|now apply cf_self]. }
  destruct (N.eq_dec c 0) as [->|N0]; [apply cf_short; cbn; tauto|].
  destruct (N.eq_dec c 9) as [->|N9]; [apply cf_short; cbn; tauto|].
  destruct (N.eq_dec c 13) as [->|N13]; [apply cf_short; cbn; tauto|].
  destruct (N.eq_dec c 10) as [->|N10]; [apply cf_short; cbn; tauto|].
  destruct (N.eq_dec c 34) as [->|N34]; [apply cf_short; cbn; tauto|].
  destruct (N.eq_dec c 92) as [->|N92]; [apply cf_short; cbn; tauto|].
  replace (char_debug esc c) with (if esc c then text "\u{" ++ lower_hex 6 c [] ++ text "}" else [c]); [auto|].
  destruct c as [|p]; [easy|]. unfold char_debug.
  repeat (destruct p as [p|p|]; try reflexivity; try easy).
Qed.
Lemma char_apart esc c d s t : c < 1114112 -> d < 1114112 -> char_debug esc c ++ s = char_debug esc d ++ t -> c = d /\ s = t.
Proof.
  intros Hc Hd.
  assert (X : forall c, c < 1114112 -> exists h, lower_hex 6 c [] = h /\ Forall is_hex h /\ hex_value h = c).
  { intros x Hx. destruct (lower_hex_spec 5 x []) as (h & H1 & H2 & H3); [cbn; lia|]. rewrite app_nil_r in H1. eauto. }
  destruct (char_debug_form esc c) as [k Hk|He|N1 N2], (char_debug_form esc d) as [k' Hk'|He'|N1' N2']; intros E.
  - injection E as E1 E2. subst. cbn [In] in Hk, Hk'.
    repeat match goal with H : _ \/ _ |- _ => destruct H as [H|H] end; try contradiction; split; congruence.
  - exfalso. injection E as E _. vm_compute in E. subst. cbn [In] in Hk. intuition congruence.
  - exfalso. injection E as E _. vm_compute in E. congruence.
  - exfalso. injection E as E _. vm_compute in E. subst. cbn [In] in Hk'. intuition congruence.
  - destruct (X c Hc) as (h & E1 & F1 & V1), (X d Hd) as (h' & E2 & F2 & V2). rewrite E1, E2 in E.
    rewrite <- !app_assoc in E. apply app_text in E. apply hex_split in E as [-> ->]; auto. split; congruence.
  - exfalso. injection E as E _. vm_compute in E. congruence.
  - exfalso. injection E as E _. vm_compute in E. congruence.
  - exfalso. injection E as E _. vm_compute in E. congruence.
  - injection E as -> ->. auto.
Qed.
Lemma char_not_quote esc c s : hd 34 (char_debug esc c ++ s) <> 34.
Proof. destruct (char_debug_form esc c); [discriminate|discriminate|cbn; congruence]. Qed.
Lemma str_apart esc : apart is_string (str_debug esc).
Proof.
  intros x y s t Hx Hy _ _ E. unfold str_debug in E. rewrite <- !app_assoc in E. cbn [app] in E. injection E as E.
  revert y Hy E. induction Hx as [|c x Hc _ IH]; intros [|d y] Hy E; cbn [flat_map app] in E.
  - injection E as ->. auto.
  - exfalso. rewrite <- app_assoc in E. apply (char_not_quote esc d (flat_map (char_debug esc) y ++ 34 :: t)). now rewrite <- E.
  - exfalso. rewrite <- app_assoc in E. apply (char_not_quote esc c (flat_map (char_debug esc) x ++ 34 :: s)). now rewrite E.
  - inversion_clear Hy as [|? ? Hd Hy']. rewrite <- !app_assoc in E. apply char_apart in E as [-> E].
    + destruct (IH y Hy' E) as [-> ->]. auto.
    + unfold is_scalar, is_scalarb in Hc. lia.
    + unfold is_scalar, is_scalarb in Hd. lia.
Qed.

(** ** C79 *)
Lemma struct1 name k0 v0 s : debug_struct name [(k0, v0)] ++ s =
  text name ++ text " { " ++ text k0 ++ text ": " ++ v0 ++ text " }" ++ s.
Proof. unfold debug_struct. cbn [map comma_separated fst snd]. now rewrite <- !app_assoc. Qed.
Lemma struct2 name k0 k1 v0 v1 s : debug_struct name [(k0, v0); (k1, v1)] ++ s =
  text name ++ text " { " ++ text k0 ++ text ": " ++ v0 ++ text ", " ++ text k1 ++ text ": " ++ v1 ++ text " }" ++ s.
Proof. unfold debug_struct. cbn [map comma_separated fst snd]. now rewrite <- !app_assoc. Qed.
Lemma struct3 name k0 k1 k2 v0 v1 v2 s : debug_struct name [(k0, v0); (k1, v1); (k2, v2)] ++ s =
  text name ++ text " { " ++ text k0 ++ text ": " ++ v0 ++ text ", " ++ text k1 ++ text ": " ++ v1 ++ text ", " ++ text k2 ++ text ": " ++ v2 ++ text " }" ++ s.
Proof. unfold debug_struct. cbn [map comma_separated fst snd]. now rewrite <- !app_assoc. Qed.
Lemma struct4 name k0 k1 k2 k3 v0 v1 v2 v3 s : debug_struct name [(k0, v0); (k1, v1); (k2, v2); (k3, v3)] ++ s =
  text name ++ text " { " ++ text k0 ++ text ": " ++ v0 ++ text ", " ++ text k1 ++ text ": " ++ v1 ++ text ", " ++ text k2 ++ text ": " ++ v2 ++ text ", " ++ text k3 ++ text ": " ++ v3 ++ text " }" ++ s.
Proof. unfold debug_struct. cbn [map comma_separated fst snd]. now rewrite <- !app_assoc. Qed.
Lemma struct5 name k0 k1 k2 k3 k4 v0 v1 v2 v3 v4 s : debug_struct name [(k0, v0); (k1, v1); (k2, v2); (k3, v3); (k4, v4)] ++ s =
  text name ++ text " { " ++ text k0 ++ text ": " ++ v0 ++ text ", " ++ text k1 ++ text ": " ++ v1 ++ text ", " ++ text k2 ++ text ": " ++ v2 ++ text ", " ++ text k3 ++ text ": " ++ v3 ++ text ", " ++ text k4 ++ text ": " ++ v4 ++ text " }" ++ s.
Proof. unfold debug_struct. cbn [map comma_separated fst snd]. now rewrite <- !app_assoc. Qed.
Lemma struct10 name k0 k1 k2 k3 k4 k5 k6 k7 k8 k9 v0 v1 v2 v3 v4 v5 v6 v7 v8 v9 s : debug_struct name [(k0, v0); (k1, v1); (k2, v2); (k3, v3); (k4, v4); (k5, v5); (k6, v6); (k7, v7); (k8, v8); (k9, v9)] ++ s =
  text name ++ text " { " ++ text k0 ++ text ": " ++ v0 ++ text ", " ++ text k1 ++ text ": " ++ v1 ++ text ", " ++ text k2 ++ text ": " ++ v2 ++ text ", " ++ text k3 ++ text ": " ++ v3 ++ text ", " ++ text k4 ++ text ": " ++ v4 ++ text ", " ++ text k5 ++ text ": " ++ v5 ++ text ", " ++ text k6 ++ text ": " ++ v6 ++ text ", " ++ text k7 ++ text ": " ++ v7 ++ text ", " ++ text k8 ++ text ": " ++ v8 ++ text ", " ++ text k9 ++ text ": " ++ v9 ++ text " }" ++ s.
Proof. unfold debug_struct. cbn [map comma_separated fst snd]. now rewrite <- !app_assoc. Qed.
Lemma tuple1 name v s : debug_tuple name [v] ++ s = text name ++ text "(" ++ v ++ text ")" ++ s.
Proof. unfold debug_tuple. cbn [comma_separated]. now rewrite <- !app_assoc. Qed.
Lemma tuple2 name v w s : debug_tuple name [v; w] ++ s = text name ++ text "(" ++ v ++ text ", " ++ w ++ text ")" ++ s.
Proof. unfold debug_tuple. cbn [comma_separated]. now rewrite <- !app_assoc. Qed.
Lemma tuple3 name v w x s : debug_tuple name [v; w; x] ++ s =
  text name ++ text "(" ++ v ++ text ", " ++ w ++ text ", " ++ x ++ text ")" ++ s.
Proof. unfold debug_tuple. cbn [comma_separated]. now rewrite <- !app_assoc. Qed.
Ltac skip_texts E := repeat match type of E with text ?a ++ _ = text ?a ++ _ => apply app_text in E end.
Ltac open_print E :=
  rewrite ?struct1, ?struct2, ?struct3, ?struct4, ?struct5, ?struct10, ?tuple1, ?tuple2, ?tuple3 in E; skip_texts E.
Ltac print_step H E :=
  apply H in E; [destruct E as [?P E]|try exact I; try assumption..|reflexivity|reflexivity]; skip_texts E.
Lemma version_apart : apart valid_version version_debug.
Proof.
  intros [a b c d] [a' b' c' d'] s t Hx Hy Hs Ht E. unfold version_debug in E. open_print E. cbn [v_major v_minor v_build v_revision] in E.
  print_step int_apart E. print_step int_apart E. print_step int_apart E. print_step int_apart E. split; congruence.
Qed.
Lemma field_apart : apart (fun _ => True) field_debug.
Proof.
  intros [a b c] [a' b' c'] s t Hx Hy Hs Ht E. unfold field_debug in E. open_print E. cbn [f_len f_max_len f_offset] in E.
  print_step int_apart E. print_step int_apart E. print_step int_apart E. split; congruence.
Qed.
Lemma filetime_apart : apart (fun _ => True) filetime_debug.
Proof.
  intros [a b] [a' b'] s t Hx Hy Hs Ht E. unfold filetime_debug in E. open_print E. cbn [ft_low ft_high] in E.
  print_step int_apart E. print_step int_apart E. split; congruence.
Qed.
Lemma single_host_apart : apart (fun _ => True) single_host_debug.
Proof.
  intros [a b c d] [a' b' c' d'] s t Hx Hy Hs Ht E. unfold single_host_debug in E. open_print E. cbn [sh_size sh_z4 sh_custom sh_machine] in E.
  print_step int_apart E. print_step int_apart E. print_step ints_apart E. print_step ints_apart E. split; congruence.
Qed.
Lemma signature_apart : apart (fun g => is_buffer 4 (sg_pad g)) signature_debug.
Proof.
  intros [a b c] [a' b' c'] s t Hx Hy Hs Ht E. unfold signature_debug in E. open_print E. cbn [sg_pad sg_checksum sg_seq] in *.
  print_step (buffer_apart 4) E. print_step int_apart E. print_step int_apart E. split; congruence.
Qed.
Lemma av_id_apart : apart (fun _ => True) av_id_debug.
Proof. apply apart_plain; [intros []; reflexivity|intros [] [] _ _; first [reflexivity|discriminate]]. Qed.
Lemma av_flags_apart : apart (fun _ => True) av_flags_debug.
Proof.
  intros [a b c] [a' b' c'] s t Hx Hy Hs Ht E. unfold av_flags_debug in E. open_print E. cbn [avf_constrained avf_mic avf_untrusted_spn] in E.
  print_step bool_apart E. print_step bool_apart E. print_step bool_apart E. split; congruence.
Qed.
(** the name of a variant ends before its arguments *)
Definition name_char (c : N) : bool := negb (stop c || (c =? 40)).
Definition name_end (s : rstring) : Prop := match s with [] => True | c :: _ => name_char c = false end.
Lemma name_split u v s t : forallb name_char u = true -> forallb name_char v = true ->
  name_end s -> name_end t -> u ++ s = v ++ t -> u = v /\ s = t.
Proof.
  revert v. induction u as [|c u IH]; intros [|d v] Hu Hv Hs Ht E; cbn [app forallb] in *.
  - auto.
  - subst s. cbn in Hs. rewrite Hs in Hv. discriminate.
  - subst t. cbn in Ht. rewrite Ht in Hu. discriminate.
  - injection E as -> E. apply andb_prop in Hu as [_ Hu]. apply andb_prop in Hv as [_ Hv].
    destruct (IH v Hu Hv Hs Ht E) as [-> ->]. auto.
Qed.
Definition av_args (esc : N -> bool) (a : av_pair) : rstring :=
  match a with
  | AvEOL => []
  | AvNbComputerName s | AvNbDomainName s | AvDnsComputerName s | AvDnsDomainName s | AvDnsTreeName s | AvTargetName s =>
      text "(" ++ str_debug esc s ++ text ")"
  | AvFlags f => text "(" ++ av_flags_debug f ++ text ")"
  | AvTimestamp t => text "(" ++ filetime_debug t ++ text ")"
  | AvSingleHost h => text "(" ++ single_host_debug h ++ text ")"
  | AvChannelBindings b => text "(" ++ vec_debug int_debug b ++ text ")"
  end.
Lemma av_pair_debug_split esc a : av_pair_debug esc a = av_id_debug (get_id a) ++ av_args esc a.
Proof. destruct a; cbn [get_id]; try reflexivity. Qed.
Lemma av_name_plain i : forallb name_char (av_id_debug i) = true.
Proof. destruct i; reflexivity. Qed.
Lemma ends_name_end s : ends s -> name_end s.
Proof. destruct s; [easy|]. cbn [ends name_end]. unfold name_char. now intros ->. Qed.
Lemma av_args_end esc a s : ends s -> name_end (av_args esc a ++ s).
Proof. intros H. destruct a; try reflexivity. now apply ends_name_end. Qed.
Lemma av_id_inj i j : av_id_debug i = av_id_debug j -> i = j.
Proof. intros E. apply (apart_inj _ _ _ _ av_id_apart I I E). Qed.
Lemma paren_apart {A} (D : A -> Prop) p x y s t : apart D p -> D x -> D y ->
  (text "(" ++ p x ++ text ")") ++ s = (text "(" ++ p y ++ text ")") ++ t -> x = y /\ s = t.
Proof.
  intros H Hx Hy E. rewrite <- !app_assoc in E. apply app_text in E. apply H in E as [-> E]; try assumption; try reflexivity.
  apply app_text in E. auto.
Qed.
Lemma av_pair_apart esc : apart valid_av_pair (av_pair_debug esc).
Proof.
  intros x y s t Hx Hy Hs Ht E. rewrite !av_pair_debug_split, <- !app_assoc in E.
  apply name_split in E as [Ei E]; [|apply av_name_plain|apply av_name_plain|now apply av_args_end|now apply av_args_end].
  apply av_id_inj in Ei. destruct x, y; try discriminate Ei; clear Ei; cbn [av_args valid_av_pair] in *.
  1: now split.
  1-5: apply (paren_apart is_string _ _ _ _ _ (str_apart esc) Hx Hy) in E as [-> ->]; now split.
  - apply (paren_apart _ _ _ _ _ _ av_flags_apart I I) in E as [-> ->]; now split.
  - apply (paren_apart _ _ _ _ _ _ filetime_apart I I) in E as [-> ->]; now split.
  - apply (paren_apart _ _ _ _ _ _ single_host_apart I I) in E as [-> ->]; now split.
  - apply (paren_apart is_string _ _ _ _ _ (str_apart esc) Hx Hy) in E as [-> ->]; now split.
  - apply (paren_apart _ _ _ _ _ _ ints_apart I I) in E as [-> ->]; now split.
Qed.
Lemma av_pair_opens esc a : opens (av_pair_debug esc a).
Proof. rewrite av_pair_debug_split. destruct a; cbv; discriminate. Qed.
Lemma infos_apart esc : apart (Forall valid_av_pair) (vec_debug (av_pair_debug esc)).
Proof. apply vec_apart; [apply av_pair_apart|intros; apply av_pair_opens]. Qed.
Lemma lm_apart : apart valid_lm lm_challenge_debug.
Proof.
  intros [r|r c] [r'|r' c'] s t Hx Hy Hs Ht E; unfold lm_challenge_debug in E; cbn [valid_lm] in Hx, Hy; do 2 open_print E; try discriminate E.
  - print_step (buffer_apart 24) E. split; congruence.
  - destruct Hx, Hy. print_step (buffer_apart 16) E. print_step (buffer_apart 8) E. split; congruence.
Qed.
Lemma nt_apart esc : apart valid_nt (nt_challenge_debug esc).
Proof.
  intros [r|[a b l]] [r'|[a' b' l']] s t Hx Hy Hs Ht E; unfold nt_challenge_debug, ntv2_debug in E; cbn [valid_nt nt_timestamp nt_client_challenge nt_target_infos] in *;
    do 2 open_print E; try discriminate E.
  - print_step (buffer_apart 24) E. split; congruence.
  - destruct Hx as (? & ? & ?), Hy as (? & ? & ?). print_step filetime_apart E. print_step (buffer_apart 8) E. print_step (infos_apart esc) E.
    split; congruence.
Qed.
Lemma ostr_apart esc : apart (valid_opt is_string) (option_debug (str_debug esc)).
Proof. apply option_apart, str_apart. Qed.
Lemma over_apart : apart (valid_opt valid_version) (option_debug version_debug).
Proof. apply option_apart, version_apart. Qed.
Lemma obuf_apart : apart (valid_opt (is_buffer 16)) (option_debug buffer_debug).
Proof. apply option_apart, buffer_apart. Qed.
Lemma negotiate_apart esc : apart valid_negotiate (negotiate_debug esc).
Proof.
  intros [a b c d] [a' b' c' d'] s t (? & ? & ? & ?) (? & ? & ? & ?) Hs Ht E. unfold negotiate_debug in E. open_print E.
  cbn [n_flags n_domain n_workstation n_version] in *.
  print_step flags_apart E. print_step (ostr_apart esc) E. print_step (ostr_apart esc) E. print_step over_apart E. split; congruence.
Qed.
Lemma challenge_apart esc : apart valid_challenge (challenge_debug esc).
Proof.
  intros [a b c d e] [a' b' c' d' e'] s t (? & ? & ? & ? & ?) (? & ? & ? & ? & ?) Hs Ht E. unfold challenge_debug in E. open_print E.
  cbn [ch_target_name ch_flags ch_server_challenge ch_target_infos ch_version] in *.
  print_step (ostr_apart esc) E. print_step flags_apart E. print_step (buffer_apart 8) E. print_step (infos_apart esc) E.
  print_step over_apart E. split; congruence.
Qed.
Lemma authenticate_apart esc : apart valid_authenticate (authenticate_debug esc).
Proof.
  intros [a b c d e f g h i j] [a' b' c' d' e' f' g' h' i' j'] s t (? & ? & ? & ? & ? & ? & ? & ? & ? & ?)
    (? & ? & ? & ? & ? & ? & ? & ? & ? & ?) Hs Ht E. unfold authenticate_debug in E. open_print E.
  cbn [a_lm a_nt a_domain a_user a_workstation a_session_key a_flags a_version a_mic a_exported_key] in *.
  print_step (option_apart _ _ lm_apart) E. print_step (option_apart _ _ (nt_apart esc)) E.
  print_step (ostr_apart esc) E. print_step (ostr_apart esc) E. print_step (ostr_apart esc) E.
  print_step obuf_apart E. print_step flags_apart E. print_step over_apart E. print_step (buffer_apart 16) E.
  print_step obuf_apart E. split; congruence.
Qed.
Lemma state_apart esc : apart valid_state (client_state_debug esc).
Proof.
  intros x y s t Hx Hy Hs Ht E.
  destruct x as [|n|n c|n c a], y as [|n'|n' c'|n' c' a']; unfold client_state_debug in E; open_print E; try discriminate E.
  - now split.
  - print_step (negotiate_apart esc) E. split; congruence.
  - destruct Hx, Hy. print_step (negotiate_apart esc) E. print_step (challenge_apart esc) E. split; congruence.
  - destruct Hx as (? & ? & ?), Hy as (? & ? & ?).
    print_step (negotiate_apart esc) E. print_step (challenge_apart esc) E. print_step (authenticate_apart esc) E. split; congruence.
Qed.
(** Messages printed alike are equal, whatever characters are escaped. *)
Lemma C79_told_apart_lem : forall esc,
  (forall m n, valid_negotiate m -> valid_negotiate n -> negotiate_debug esc m = negotiate_debug esc n -> m = n)
  /\ (forall b c, valid_challenge b -> valid_challenge c -> challenge_debug esc b = challenge_debug esc c -> b = c)
  /\ (forall a b, valid_authenticate a -> valid_authenticate b -> authenticate_debug esc a = authenticate_debug esc b -> a = b)
  /\ (forall s t, valid_state s -> valid_state t -> client_state_debug esc s = client_state_debug esc t -> s = t).
Proof.
  intros esc. split; [|split; [|split]]; intros ? ? ? ? E.
  - exact (apart_inj _ _ _ _ (negotiate_apart esc) H H0 E).
  - exact (apart_inj _ _ _ _ (challenge_apart esc) H H0 E).
  - exact (apart_inj _ _ _ _ (authenticate_apart esc) H H0 E).
  - exact (apart_inj _ _ _ _ (state_apart esc) H H0 E).
Qed.
Lemma C79_structures_told_apart_lem : forall esc,
  (forall x y, av_id_debug x = av_id_debug y -> x = y)
  /\ (forall x y, version_debug x = version_debug y -> x = y)
  /\ (forall x y, field_debug x = field_debug y -> x = y)
  /\ (forall x y, filetime_debug x = filetime_debug y -> x = y)
  /\ (forall x y, single_host_debug x = single_host_debug y -> x = y)
  /\ (forall x y, av_flags_debug x = av_flags_debug y -> x = y)
  /\ (forall x y, is_buffer 4 (sg_pad x) -> is_buffer 4 (sg_pad y) -> signature_debug x = signature_debug y -> x = y)
  /\ (forall x y, valid_av_pair x -> valid_av_pair y -> av_pair_debug esc x = av_pair_debug esc y -> x = y)
  /\ (forall x y, valid_lm x -> valid_lm y -> lm_challenge_debug x = lm_challenge_debug y -> x = y)
  /\ (forall x y, valid_nt x -> valid_nt y -> nt_challenge_debug esc x = nt_challenge_debug esc y -> x = y).
Proof.
  intros esc.
  assert (V : apart (fun _ => True) version_debug).
  { intros x y s t _ _ Hs Ht E. unfold version_debug in E. open_print E.
    print_step int_apart E. print_step int_apart E. print_step int_apart E. print_step int_apart E.
    destruct x, y; cbn in *. split; congruence. }
  repeat match goal with |- _ /\ _ => split end; intros x y.
  - apply (apart_inj _ _ _ _ av_id_apart I I).
  - apply (apart_inj _ _ _ _ V I I).
  - apply (apart_inj _ _ _ _ field_apart I I).
  - apply (apart_inj _ _ _ _ filetime_apart I I).
  - apply (apart_inj _ _ _ _ single_host_apart I I).
  - apply (apart_inj _ _ _ _ av_flags_apart I I).
  - apply (apart_inj _ _ x y signature_apart).
  - apply (apart_inj _ _ x y (av_pair_apart esc)).
  - apply (apart_inj _ _ x y lm_apart).
  - apply (apart_inj _ _ x y (nt_apart esc)).
Qed.

(** The printed form of the three messages, part by part. *)
Lemma option_form {A} (p : A -> rstring) o : option_debug p o = some_or_none (option_map p o).
Proof. destruct o; [|reflexivity]. cbn [option_map some_or_none option_debug]. unfold debug_tuple. cbn [comma_separated]. reflexivity. Qed.
Lemma str_quoted esc s : Forall (needs_no_escape esc) s -> str_debug esc s = quoted s.
Proof.
  intros H. unfold str_debug, quoted. f_equal. f_equal. induction H as [|c s [Hc Hn] _ IH]; [reflexivity|]. cbn [flat_map].
  rewrite IH. destruct (char_debug_form esc c) as [k Hk|He|_ _]; [|congruence|reflexivity].
  exfalso. apply Hn. cbn [In] in *. intuition congruence.
Qed.
Lemma version_form_eq v : version_debug v = version_form v.
Proof.
  unfold version_debug. rewrite <- (app_nil_r (debug_struct _ _)), struct4, !app_nil_r. reflexivity.
Qed.
Lemma names_of_eq f : flags_debug f = names_of f.
Proof. apply C46_flags_printed_lem. Qed.
Lemma hex_of_eq b : is_bytes b -> buffer_debug b = hex_of b.
Proof. intros H. apply (C47_buffer_printed_lem b H). Qed.
Lemma obuf_form o : valid_opt (is_buffer 16) o -> option_debug buffer_debug o = some_or_none (option_map hex_of o).
Proof. intros H. rewrite option_form. destruct o as [b|]; [|reflexivity]. cbn [option_map]. destruct H as [_ H]. now rewrite hex_of_eq. Qed.
Lemma over_form o : option_debug version_debug o = some_or_none (option_map version_form o).
Proof. rewrite option_form. destruct o; [|reflexivity]. cbn [option_map]. now rewrite version_form_eq. Qed.
Lemma text2 a b s : text a ++ text b ++ s = text (String.append a b) ++ s.
Proof. now rewrite text_append, <- app_assoc. Qed.
Ltac flat_form lem :=
  match goal with |- debug_struct ?n ?l = _ => rewrite <- (app_nil_r (debug_struct n l)) end;
  rewrite lem, app_nil_r, !text2; cbn [String.append]; reflexivity.
Lemma C79_negotiate_form_lem : forall esc n, negotiate_debug esc n =
  text "Negotiate { negotiate_flags: " ++ names_of (n_flags n)
  ++ text ", domain_name: " ++ some_or_none (option_map (str_debug esc) (n_domain n))
  ++ text ", workstation: " ++ some_or_none (option_map (str_debug esc) (n_workstation n))
  ++ text ", version: " ++ some_or_none (option_map version_form (n_version n)) ++ text " }".
Proof.
  intros esc n. unfold negotiate_debug. rewrite names_of_eq, over_form, !option_form. flat_form struct4.
Qed.
Lemma C79_challenge_form_lem : forall esc c, valid_challenge c -> challenge_debug esc c =
  text "Challenge { target_name: " ++ some_or_none (option_map (str_debug esc) (ch_target_name c))
  ++ text ", negotiate_flags: " ++ names_of (ch_flags c)
  ++ text ", server_challenge: " ++ hex_of (ch_server_challenge c)
  ++ text ", target_infos: " ++ text "[" ++ comma_separated (map (av_pair_debug esc) (ch_target_infos c)) ++ text "]"
  ++ text ", version: " ++ some_or_none (option_map version_form (ch_version c)) ++ text " }".
Proof.
  intros esc c (_ & _ & [_ Hb] & _ & _). unfold challenge_debug. rewrite names_of_eq, over_form, option_form, hex_of_eq by exact Hb.
  unfold vec_debug, debug_list.
  match goal with |- debug_struct ?n ?l = _ => rewrite <- (app_nil_r (debug_struct n l)) end.
  rewrite struct5, app_nil_r. rewrite <- !app_assoc, !text2. cbn [String.append]. reflexivity.
Qed.
Lemma C79_authenticate_form_lem : forall esc a, valid_authenticate a -> authenticate_debug esc a =
  text "Authenticate { lm_challenge_response: " ++ some_or_none (option_map lm_challenge_debug (a_lm a))
  ++ text ", nt_challenge_response: " ++ some_or_none (option_map (nt_challenge_debug esc) (a_nt a))
  ++ text ", domain: " ++ some_or_none (option_map (str_debug esc) (a_domain a))
  ++ text ", user: " ++ some_or_none (option_map (str_debug esc) (a_user a))
  ++ text ", workstation: " ++ some_or_none (option_map (str_debug esc) (a_workstation a))
  ++ text ", encrypted_random_session_key: " ++ some_or_none (option_map hex_of (a_session_key a))
  ++ text ", negotiate_flags: " ++ names_of (a_flags a)
  ++ text ", version: " ++ some_or_none (option_map version_form (a_version a))
  ++ text ", mic: " ++ hex_of (a_mic a)
  ++ text ", exported_session_key: " ++ some_or_none (option_map hex_of (a_exported_key a)) ++ text " }".
Proof.
  intros esc a (_ & _ & _ & _ & _ & Hk & _ & _ & [_ Hm] & He). unfold authenticate_debug.
  rewrite names_of_eq, over_form, !obuf_form, !option_form, hex_of_eq by assumption. flat_form struct10.
Qed.
(** Strings are printed between quotes, as they are if no character needs escaping. *)
Lemma C79_string_form_lem : forall esc s, Forall (needs_no_escape esc) s -> str_debug esc s = quoted s.
Proof. exact str_quoted. Qed.
Example C79_ex_lem :
  valid_negotiate (mkNegotiate 33554433 (Some [68; 34; 10; 233; 769]) None (Some (mkVersion 10 0 17763 15)))
  /\ negotiate_debug (fun c => c =? 769) (mkNegotiate 33554433 (Some [68; 34; 10; 233; 769]) None (Some (mkVersion 10 0 17763 15)))
     = text "Negotiate { negotiate_flags: NTLMSSP_NEGOTIATE_VERSION|NTLMSSP_NEGOTIATE_UNICODE, domain_name: Some(" ++ [34]
       ++ text "D\" ++ [34] ++ text "\n" ++ [233] ++ text "\u{301}" ++ [34]
       ++ text "), workstation: None, version: Some(Version { major: 10, minor: 0, build: 17763, revision_count: 15 }) }".
Proof. split; [closed_valid|vm_compute; reflexivity]. Qed.

(** ** C80 *)
Section OneLine.
  Context (esc : N -> bool).
  Let Q := one_line_char esc.
  Lemma ol_ascii s : forallb (fun c => (32 <=? c) && (c <=? 126)) s = true -> Forall Q s.
  Proof. intros H. rewrite forallb_forall in H. apply Forall_forall. intros c Hc. specialize (H c Hc). left. lia. Qed.
  Lemma ol_comma l : Forall (Forall Q) l -> Forall Q (comma_separated l).
  Proof.
    intros H. induction H as [|x l Hx Hl IH]; [constructor|]. destruct l as [|y l]; [exact Hx|].
    change (comma_separated (x :: y :: l)) with (x ++ text ", " ++ comma_separated (y :: l)).
    repeat (apply Forall_app; split); [exact Hx|now apply ol_ascii|exact IH].
  Qed.
  Definition plain_name (s : string) : bool := forallb (fun c => (32 <=? c) && (c <=? 126)) (text s).
  Lemma ol_struct name l : plain_name name = true -> Forall (fun f => plain_name (fst f) = true /\ Forall Q (snd f)) l ->
    Forall Q (debug_struct name l).
  Proof.
    intros Hn Hl. unfold debug_struct. repeat (apply Forall_app; split); try now apply ol_ascii.
    apply ol_comma. apply Forall_map. eapply Forall_impl; [|exact Hl]. intros [k v] [Hk Hv]. cbn [fst snd] in *.
    repeat (apply Forall_app; split); [now apply ol_ascii|now apply ol_ascii|exact Hv].
  Qed.
  Lemma ol_tuple name l : plain_name name = true -> Forall (Forall Q) l -> Forall Q (debug_tuple name l).
  Proof. intros Hn Hl. unfold debug_tuple. repeat (apply Forall_app; split); try now apply ol_ascii. now apply ol_comma. Qed.
  Lemma ol_vec {A} (p : A -> rstring) l : (forall x, Forall Q (p x)) -> Forall Q (vec_debug p l).
  Proof.
    intros H. unfold vec_debug, debug_list. repeat (apply Forall_app; split); try now apply ol_ascii.
    apply ol_comma, Forall_map, Forall_forall. auto.
  Qed.
  Lemma ol_option {A} (p : A -> rstring) o : (forall x, Forall Q (p x)) -> Forall Q (option_debug p o).
  Proof. intros H. destruct o; [|now apply ol_ascii]. apply ol_tuple; [reflexivity|]. repeat constructor. apply H. Qed.
  Lemma ol_int n : Forall Q (int_debug n).
  Proof.
    destruct (C77_decimal_lem n) as [H _]. eapply Forall_impl; [|exact H]. intros c Hc. unfold is_digit in Hc. left. lia.
  Qed.
  Lemma ol_bool b : Forall Q (bool_debug b).
  Proof. destruct b; now apply ol_ascii. Qed.
  Lemma ol_hex fuel : forall n acc, Forall Q acc -> Forall Q (lower_hex fuel n acc).
  Proof.
    induction fuel as [|fuel IH]; intros n acc H; [exact H|]. cbn [lower_hex].
    assert (Forall Q (lower_digit (n mod 16) :: acc)).
    { constructor; [|exact H]. assert (n mod 16 < 16) by lia. unfold lower_digit. left. destruct (_ <? 10); lia. }
    destruct (_ =? 0); auto.
  Qed.
  Lemma ol_buffer b : Forall Q (buffer_debug b).
  Proof.
    unfold buffer_debug. induction b as [|x b IH]; [constructor|]. cbn [flat_map]. apply Forall_app. split; [|exact IH].
    unfold pad2. apply Forall_app. split; [|apply ol_hex; constructor].
    apply Forall_forall. intros c Hc. apply repeat_spec in Hc. left. lia.
  Qed.
  Lemma ol_str s : Forall Q (str_debug esc s).
  Proof.
    unfold str_debug. constructor; [left; lia|]. apply Forall_app. split; [|constructor; [left; lia|constructor]].
    induction s as [|c s IH]; [constructor|]. cbn [flat_map]. apply Forall_app. split; [|exact IH].
    destruct (N.eq_dec c 0) as [->|N0]; [now apply ol_ascii|]. destruct (N.eq_dec c 9) as [->|N9]; [now apply ol_ascii|].
    destruct (N.eq_dec c 13) as [->|N13]; [now apply ol_ascii|]. destruct (N.eq_dec c 10) as [->|N10]; [now apply ol_ascii|].
    destruct (N.eq_dec c 34) as [->|N34]; [now apply ol_ascii|]. destruct (N.eq_dec c 92) as [->|N92]; [now apply ol_ascii|].
    replace (char_debug esc c) with (if esc c then text "\u{" ++ lower_hex 6 c [] ++ text "}" else [c]).
    - destruct (esc c) eqn:E; [|constructor; [right; auto|constructor]].
      repeat (apply Forall_app; split); [now apply ol_ascii|apply ol_hex; constructor|now apply ol_ascii].
    - destruct c as [|p]; [easy|]. unfold char_debug. repeat (destruct p as [p|p|]; try reflexivity; try easy).
  Qed.
  Lemma ol_flags f : Forall Q (flags_debug f).
  Proof.
    rewrite names_of_eq. unfold names_of.
    assert (G : forall l, Forall (Forall Q) l -> Forall Q (bar_separated l)).
    { intros l H. induction H as [|x l Hx Hl IH]; [constructor|]. destruct l as [|y l]; [exact Hx|].
      change (bar_separated (x :: y :: l)) with (x ++ BAR :: bar_separated (y :: l)).
      apply Forall_app. split; [exact Hx|]. constructor; [left; unfold BAR; lia|exact IH]. }
    apply G, Forall_map, Forall_forall. intros b Hb. apply filter_In in Hb as [Hb _].
    assert (A : forallb (fun b : N * string => plain_name (snd b)) flag_names = true) by (vm_compute; reflexivity).
    rewrite forallb_forall in A. apply ol_ascii, (A b Hb).
  Qed.
End OneLine.
Ltac ol :=
  repeat first
  [ progress cbn [fst snd] | apply ol_struct; [reflexivity|] | apply ol_tuple; [reflexivity|]
  | apply ol_int | apply ol_bool | apply ol_buffer | apply ol_str | apply ol_flags
  | apply ol_option; intros ? | apply ol_vec; intros ?
  | apply Forall_cons | apply Forall_nil | apply conj | reflexivity ].
Lemma ol_version esc v : Forall (one_line_char esc) (version_debug v).
Proof. unfold version_debug. ol. Qed.
Lemma ol_av_pair esc a : Forall (one_line_char esc) (av_pair_debug esc a).
Proof.
  destruct a; unfold av_pair_debug, av_flags_debug, filetime_debug, single_host_debug; try (now apply ol_ascii); ol.
Qed.
Lemma ol_lm esc c : Forall (one_line_char esc) (lm_challenge_debug c).
Proof. destruct c; unfold lm_challenge_debug; ol. Qed.
Lemma ol_nt esc c : Forall (one_line_char esc) (nt_challenge_debug esc c).
Proof. destruct c; unfold nt_challenge_debug, ntv2_debug, filetime_debug; ol; first [apply ol_av_pair]. Qed.
Lemma C80_one_line_lem : forall esc,
  (forall n, Forall (one_line_char esc) (negotiate_debug esc n))
  /\ (forall c, Forall (one_line_char esc) (challenge_debug esc c))
  /\ (forall a, Forall (one_line_char esc) (authenticate_debug esc a)).
Proof.
  intros esc. split; [|split].
  - intros n. unfold negotiate_debug. ol; first [apply ol_version].
  - intros c. unfold challenge_debug. ol; first [apply ol_av_pair|apply ol_version].
  - intros a. unfold authenticate_debug. ol; first [apply ol_lm|apply ol_nt|apply ol_version].
Qed.
(** In particular none contains a line break, whatever strings the message holds. *)
Lemma C80_no_line_break_lem : forall esc,
  (forall n, ~ In 10 (negotiate_debug esc n) /\ ~ In 13 (negotiate_debug esc n))
  /\ (forall c, ~ In 10 (challenge_debug esc c) /\ ~ In 13 (challenge_debug esc c))
  /\ (forall a, ~ In 10 (authenticate_debug esc a) /\ ~ In 13 (authenticate_debug esc a)).
Proof.
  intros esc. destruct (C80_one_line_lem esc) as (H1 & H2 & H3).
  assert (G : forall s, Forall (one_line_char esc) s -> ~ In 10 s /\ ~ In 13 s).
  { intros s H. rewrite Forall_forall in H. split; intros Hc; specialize (H _ Hc); unfold one_line_char in H; lia. }
  split; [|split]; intros x; apply G; auto.
Qed.
Example C80_ex_lem : let n := mkNegotiate 1 (Some [65; 13; 10; 66]) None None in
  valid_negotiate n /\ In 10 [65; 13; 10; 66]
  /\ negotiate_debug (fun _ => false) n =
     text "Negotiate { negotiate_flags: NTLMSSP_NEGOTIATE_UNICODE, domain_name: Some(" ++ [34] ++ text "A\r\nB" ++ [34]
     ++ text "), workstation: None, version: None }".
Proof. split; [closed_valid|]. split; [cbn; tauto|vm_compute; reflexivity]. Qed.

(** ** C81 *)
(** Printing does not hide the session key: it is there, in hexadecimal. *)
Lemma C81_key_printed_lem : forall esc a k, valid_authenticate a -> a_exported_key a = Some k ->
  occurs (text "exported_session_key: Some(" ++ hex_of k ++ text ")") (authenticate_debug esc a).
Proof.
  intros esc a k Hv Hk. rewrite C79_authenticate_form_lem, Hk by exact Hv. cbn [option_map some_or_none].
  set (m := hex_of (a_mic a)). set (ws := some_or_none (option_map version_form (a_version a))).
  unfold occurs.
  change (text ", exported_session_key: ") with (text ", " ++ text "exported_session_key: ").
  change (text "exported_session_key: Some(") with (text "exported_session_key: " ++ text "Some(").
  match goal with |- exists x y, ?a1 ++ ?a2 ++ ?b1 ++ ?b2 ++ ?c1 ++ ?c2 ++ ?d1 ++ ?d2 ++ ?e1 ++ ?e2 ++ ?f1 ++ ?f2 ++ ?g1 ++ ?g2 ++ ?h1 ++ ?h2 ++ ?i1 ++ ?i2 ++ (?j1 ++ ?j2) ++ ?j3 = _ =>
    exists (a1 ++ a2 ++ b1 ++ b2 ++ c1 ++ c2 ++ d1 ++ d2 ++ e1 ++ e2 ++ f1 ++ f2 ++ g1 ++ g2 ++ h1 ++ h2 ++ i1 ++ i2 ++ j1), (text " }") end.
  rewrite <- !app_assoc. reflexivity.
Qed.
(** "Printing a message tells nothing about its session key" is false. *)
Lemma C81_key_hidden_refuted_lem :
  ~ (forall esc a k k', valid_authenticate a -> is_buffer 16 k -> is_buffer 16 k' ->
       authenticate_debug esc (with_exported_key a (Some k)) = authenticate_debug esc (with_exported_key a (Some k'))).
Proof.
  intros H. specialize (H (fun _ => false) sample_authenticate (repeat 1 16) (repeat 2 16)).
  assert (V : valid_authenticate sample_authenticate) by (cbv delta [sample_authenticate]; closed_valid).
  specialize (H V ltac:(closed_valid) ltac:(closed_valid)). vm_compute in H. discriminate H.
Qed.
Example C81_ex_lem : valid_authenticate sample_authenticate /\ a_exported_key sample_authenticate = Some (repeat 8 16)
  /\ hex_of (repeat 8 16) = text "08080808080808080808080808080808".
Proof. split; [closed_valid|]. split; vm_compute; reflexivity. Qed.
