(** Facts about the memory of the Windows client. *)
From Coq Require Import ZifyBool ZifyNat ZifyN.
From Verif Require Import Base Unicode Win WinMem Spec SpecWin SpecWinMem Lib Samples SamplesWin FactsWin.
Ltac Zify.zify_post_hook ::= Z.div_mod_to_equations.

(** ** Memory *)
Lemma load_app b m : load (length b) (map Some b ++ m) = Some b.
Proof. induction b as [|x b IH]; [destruct m; reflexivity|]. cbn [length map app load]. rewrite IH. reflexivity. Qed.
Lemma load_some n m b : load n m = Some b -> length b = n /\ holds m b.
Proof.
  revert m b. induction n as [|n IH]; intros m b.
  - destruct m; cbn [load]; intros E; injection E as <-; (split; [reflexivity|]); eexists; reflexivity.
  - destruct m as [|[x|] m]; cbn [load]; try discriminate.
    destruct (load n m) as [c|] eqn:E; cbn [option_map]; [|discriminate]. intros Q. injection Q as <-.
    destruct (IH _ _ E) as [L [r R]]. split; [cbn [length]; lia|]. exists r. cbn [map app]. rewrite <- R. reflexivity.
Qed.
Lemma load_none n m : (n <= length m)%nat -> (load n m = None <-> exists i, (i < n)%nat /\ nth_error m i = Some None).
Proof.
  revert m. induction n as [|n IH]; intros m L.
  - split; [destruct m; discriminate|]. intros [i [I _]]. lia.
  - destruct m as [|[x|] m]; cbn [length] in L; [lia| |].
    + cbn [load]. assert (L' : (n <= length m)%nat) by lia. specialize (IH m L').
      destruct (load n m) as [c|]; cbn [option_map].
      * split; [discriminate|]. intros [[|i] [I E]]; [discriminate E|]. cbn [nth_error] in E.
        destruct IH as [_ IH]. discriminate IH. exists i. split; [lia|exact E].
      * split; [intros _|reflexivity]. destruct IH as [IH _]. destruct (IH eq_refl) as [i [I E]]. exists (S i).
        split; [lia|exact E].
    + split; [intros _|reflexivity]. exists 0%nat. split; [lia|reflexivity].
Qed.
Lemma store_length d m : (length d <= length m)%nat -> length (store d m) = length m.
Proof. intros L. unfold store. rewrite app_length, map_length, skipn_length. lia. Qed.
Lemma nth_store d m i : nth_error (store d m) i = Some None <->
  (length d <= i)%nat /\ nth_error m i = Some None.
Proof.
  unfold store. destruct (le_lt_dec (length d) i) as [L|L].
  - rewrite nth_error_app2 by (rewrite map_length; exact L). rewrite map_length.
    assert (E : nth_error (skipn (length d) m) (i - length d) = nth_error m i).
    { clear - L. revert m i L. induction d as [|x d IH]; intros m i L.
      - cbn [length skipn]. f_equal. lia.
      - cbn [length] in *. destruct i as [|i]; [lia|]. destruct m as [|y m]; [cbn [skipn]; destruct (S i - S (length d))%nat; reflexivity|].
        cbn [skipn nth_error]. rewrite <- (IH m i) by lia. f_equal. }
    rewrite E. tauto.
  - rewrite nth_error_app1 by (rewrite map_length; exact L). rewrite nth_error_map.
    destruct (nth_error d i); cbn [option_map]; split; try discriminate; intros [Q _]; lia.
Qed.

(** ** One operation *)
Definition input_of (o : win_op) : option bytes := match o with WNegotiate => None | WChallenge m => Some m end.
Definition expected_of (o : win_op) : bool := match o with WNegotiate => false | WChallenge _ => true end.
Lemma perform_step cfg pkg log w o : mem_perform cfg pkg log w o = mem_step cfg pkg log w (input_of o) (expected_of o).
Proof. destruct o; reflexivity. Qed.
Lemma opening_eq w o : InitContext (mc_credentials w) (mc_context w) (mc_target w) (option_map seen (input_of o))
    (N.of_nat (length (mc_memory w))) = mem_opening w o.
Proof. destruct o; reflexivity. Qed.

(** Exactly when an operation is undefined, for packages that keep the contract. *)
Lemma C86_exactly_lem : forall cfg pkg log w o, lawful_package pkg ->
  let capacity := N.of_nat (length (mc_memory w)) in
  let r := pkg (mem_opening w o :: log) in
  (exists log' u, mem_perform cfg pkg log w o = (log', Undef u))
  <-> 2147483648 <= m_status r
      /\ (m_handle r = None /\ mc_context w = None
          \/ exists i, len (m_data r) <= i < claimed r capacity
                       /\ nth_error (mc_memory w) (N.to_nat i) = Some None).
Proof.
  intros cfg pkg log w o Hl capacity r.
  pose proof (Hl (mem_opening w o) log) as [Hc Hw]. fold r in Hc, Hw.
  assert (D : len (m_data r) <= capacity) by apply Hc.
  assert (S1 : claimed r capacity <= capacity).
  { unfold claimed. destruct (m_size r) as [n|] eqn:E; [|lia]. destruct Hc as [_ Hc]. rewrite E in Hc. exact Hc. }
  rewrite perform_step. unfold mem_step, mem_initialize. cbn zeta. rewrite opening_eq. fold r. fold capacity.
  change (match m_size r with Some n => n | None => capacity end) with (claimed r capacity).
  replace (length (mc_memory w) <? length (m_data r))%nat with false by (unfold len, capacity in D; lia).
  set (mem := store (m_data r) (mc_memory w)).
  assert (Lm : length mem = length (mc_memory w)) by (apply store_length; unfold len, capacity in D; lia).
  assert (U : load (N.to_nat (claimed r capacity)) mem = None <->
      exists i, len (m_data r) <= i < claimed r capacity /\ nth_error (mc_memory w) (N.to_nat i) = Some None).
  { rewrite load_none by (rewrite Lm; unfold capacity in *; lia). split.
    - intros [i [I E]]. apply nth_store in E. destruct E as [E1 E2]. exists (N.of_nat i). rewrite Nat2N.id.
      split; [unfold len; lia|exact E2].
    - intros [i [I E]]. exists (N.to_nat i). split; [lia|]. apply nth_store. split; [unfold len in I; lia|exact E]. }
  assert (W : m_status r < 2147483648 -> m_handle r <> None /\ m_size r = Some (len (m_data r))).
  { intros Q. apply Hw in Q. apply Q. }
  destruct (match m_handle r with Some h => Some h | None => mc_context w end) as [ctx|] eqn:Hx.
  2: { split; [intros _|intros _; eexists; eexists; reflexivity].
       destruct (m_handle r); [discriminate Hx|]. split; [|left; split; [reflexivity|exact Hx]].
       destruct (N.lt_ge_cases (m_status r) 2147483648) as [Q|Q]; [|exact Q]. destruct (W Q) as [Q' _]. elim Q'. reflexivity. }
  replace (capacity <? claimed r capacity) with false by lia.
  destruct (load (N.to_nat (claimed r capacity)) mem) as [token|] eqn:Ht.
  2: { split; [intros _|intros _; eexists; eexists; reflexivity].
       destruct U as [U _]. specialize (U eq_refl). split; [|right; exact U].
       destruct (N.lt_ge_cases (m_status r) 2147483648) as [Q|Q]; [|exact Q]. destruct (W Q) as [_ Q'].
       destruct U as [i [I _]]. unfold claimed in I. rewrite Q' in I. lia. }
  assert (N1 : ~ (exists i, len (m_data r) <= i < claimed r capacity /\ nth_error (mc_memory w) (N.to_nat i) = Some None)).
  { intros Q. apply U in Q. discriminate Q. }
  assert (N2 : ~ (m_handle r = None /\ mc_context w = None)).
  { intros [Q Q']. rewrite Q, Q' in Hx. discriminate Hx. }
  assert (L2 : load (N.to_nat (claimed r capacity)) mem <> None) by (rewrite Ht; discriminate).
  set (c2 := CompleteToken ctx token). set (lg := mem_opening w o :: log).
  pose proof (Hl c2 lg) as [[Hc2 _] _]. cbn [room c2] in Hc2.
  assert (Lt : len token <= capacity).
  { apply load_some in Ht. destruct Ht as [Ht _]. unfold len. lia. }
  destruct ((m_status r =? SEC_I_COMPLETE_NEEDED) || (m_status r =? SEC_I_COMPLETE_AND_CONTINUE)).
  - replace (length (mc_memory w) <? length (m_data (pkg (c2 :: lg))))%nat with false by (unfold len, capacity in *; lia).
    destruct (failure (m_status (pkg (c2 :: lg)))); [|destruct (debug cfg && _)].
    + split; [intros (? & ? & Q); discriminate Q|tauto].
    + split; [intros (? & ? & Q); discriminate Q|tauto].
    + cbn [mc_len mc_memory]. destruct (load (N.to_nat (claimed r capacity)) (store (m_data (pkg (c2 :: lg))) mem)) eqn:Q.
      * split; [intros (? & ? & Q'); discriminate Q'|tauto].
      * exfalso. apply load_none in Q; [|rewrite store_length; [rewrite Lm; unfold capacity in *; lia|rewrite Lm; unfold len, capacity in *; lia]].
        destruct Q as [i [I E]]. apply nth_store in E. apply L2. apply load_none; [rewrite Lm; unfold capacity in *; lia|].
        exists i. split; [exact I|apply E].
  - destruct (debug cfg && _).
    + split; [intros (? & ? & Q); discriminate Q|tauto].
    + cbn [mc_len mc_memory]. rewrite Ht. split; [intros (? & ? & Q); discriminate Q|tauto].
Qed.

(** A call that succeeds: defined, and without completion the bytes returned are those just written. *)
Lemma C86_success_lem : forall cfg pkg log w o, lawful_package pkg ->
  let r := pkg (mem_opening w o :: log) in m_status r < 2147483648 ->
  exists log' w' res, mem_perform cfg pkg log w o = (log', Fine (w', res))
    /\ (~ wants_completion (m_status r) -> log' = mem_opening w o :: log
        /\ forall out, res = Val (inl out) -> out = m_data r).
Proof.
  intros cfg pkg log w o Hl r Hs.
  destruct (mem_perform cfg pkg log w o) as [log' [u|[w' res]]] eqn:E.
  { exfalso. assert (Q : exists log' u, mem_perform cfg pkg log w o = (log', Undef u)) by (eexists; eexists; exact E).
    apply (C86_exactly_lem cfg pkg log w o Hl) in Q. fold r in Q. lia. }
  exists log', w', res. split; [reflexivity|]. intros Hn.
  assert (C : (m_status r =? SEC_I_COMPLETE_NEEDED) || (m_status r =? SEC_I_COMPLETE_AND_CONTINUE) = false).
  { destruct (_ || _) eqn:C; [|reflexivity]. elim Hn. apply complete_dec. exact C. }
  pose proof (Hl (mem_opening w o) log) as [Hc Hw]. fold r in Hc, Hw. specialize (Hw Hs).
  rewrite perform_step in E. unfold mem_step, mem_initialize in E. cbn zeta in E. rewrite opening_eq in E. fold r in E.
  destruct Hw as [D [Hh Hz]]. rewrite Hz, C in E. change (room (mem_opening w o)) with (N.of_nat (length (mc_memory w))) in D.
  replace (length (mc_memory w) <? length (m_data r))%nat with false in E by (unfold len in D; lia).
  destruct (m_handle r) as [h|]; [|elim Hh; reflexivity].
  replace (N.of_nat (length (mc_memory w)) <? len (m_data r)) with false in E by lia.
  unfold store, len in E. rewrite Nat2N.id, load_app in E.
  destruct (debug cfg && _); cbn [mc_len mc_memory] in E.
  - injection E as <- <- <-. split; [reflexivity|]. discriminate.
  - rewrite Nat2N.id, load_app in E. injection E as <- <- <-. split; [reflexivity|]. intros out Q. injection Q as <-. reflexivity.
Qed.

(** Failures that write nothing, as they may: undefined in the first call, and in later ones unless the
    whole buffer had been used before. *)
Lemma C86_silent_failure_lem : forall cfg pkg log w o, lawful_package pkg -> silent_failures pkg ->
  2147483648 <= m_status (pkg (mem_opening w o :: log)) ->
  (mc_context w = None -> mem_perform cfg pkg log w o = (mem_opening w o :: log, Undef UninitHandle))
  /\ (mc_context w <> None -> In None (mc_memory w) ->
      mem_perform cfg pkg log w o = (mem_opening w o :: log, Undef UninitBytes)).
Proof.
  intros cfg pkg log w o Hl Hs Hf. destruct (Hs _ _ Hf) as [H1 [H2 H3]].
  rewrite perform_step. unfold mem_step, mem_initialize. cbn zeta. rewrite opening_eq, H1, H2, H3.
  change (length (mc_memory w) <? length (@nil N))%nat with false. cbn iota.
  change (store [] (mc_memory w)) with (mc_memory w).
  split.
  - intros ->. reflexivity.
  - intros Hc Hi. destruct (mc_context w) as [c|]; [|elim Hc; reflexivity].
    rewrite N.ltb_irrefl, Nat2N.id.
    replace (load (length (mc_memory w)) (mc_memory w)) with (@None bytes); [reflexivity|].
    symmetry. apply load_none; [lia|]. apply In_nth_error in Hi. destruct Hi as [i Hi]. exists i. split; [|exact Hi].
    apply nth_error_Some. rewrite Hi. discriminate.
Qed.

Lemma silent_lawful : lawful_package silent_package.
Proof.
  intros c log. destruct c; unfold contained, written; cbn; repeat split; try discriminate; try lia.
Qed.
Lemma silent_silent : silent_failures silent_package.
Proof. intros c log. destruct c; cbn; intros; try lia; auto. Qed.
Lemma stale_lawful : lawful_package stale_package.
Proof.
  intros c log. destruct c as [p|cr [cx|] t i cap|cx t|cr|cx]; unfold contained, written;
    cbn [stale_package room m_data m_status m_handle m_size len length]; try solve [unfold len; cbn [length]; repeat split; try discriminate; lia].
  - destruct (N.ltb_spec cap 2); cbn [m_data m_status m_handle m_size]; unfold len; cbn [length]; repeat split; try discriminate; lia.
  - destruct (N.ltb_spec cap 3); cbn [m_data m_status m_handle m_size]; unfold len; cbn [length];
      repeat split; try discriminate; lia.
Qed.
Lemma full_complete : complete_package full_package.
Proof.
  intros c log. destruct c as [p|cr [cx|] t i cap|cx t|cr|cx]; unfold written;
    cbn [full_package room m_data m_status m_handle m_size len length]; try solve [unfold len; cbn [length]; repeat split; try discriminate; lia].
  - destruct (N.ltb_spec cap 1); cbn [m_data m_status m_handle m_size]; unfold len; cbn [length]; repeat split; try discriminate; lia.
  - destruct (N.ltb_spec cap 3); cbn [m_data m_status m_handle m_size]; unfold len; cbn [length]; repeat split; try discriminate; lia.
  - destruct (N.ltb_spec (len t) 2); unfold len in *; cbn [length]; repeat split; lia.
Qed.

Lemma C86_defined_refuted_lem : ~ (forall cfg pkg cap target w os, lawful_package pkg -> mem_made pkg cap target w ->
  exists log w', mem_performs cfg pkg [AcquireCredentials NEGOTIATE_PACKAGE] w os = (log, Fine w')).
Proof.
  intros H. destruct (H cfg_debug silent_package 5%nat str_target_win (made_mem silent_package 5 str_target_win) [WNegotiate]
    silent_lawful) as [log [w' Q]]; [vm_compute; reflexivity|]. vm_compute in Q. discriminate Q.
Qed.
(** The bytes returned after a failure can be those of an earlier token. *)
Lemma C86_fresh_refuted_lem : ~ (forall cfg pkg cap target w os log w' o log' w'' out, lawful_package pkg -> mem_made pkg cap target w ->
  mem_performs cfg pkg [AcquireCredentials NEGOTIATE_PACKAGE] w os = (log, Fine w') ->
  mem_perform cfg pkg log w' o = (log', Fine (w'', Val (inl out))) ->
  ~ wants_completion (m_status (pkg (mem_opening w' o :: log))) ->
  out = m_data (pkg (mem_opening w' o :: log))).
Proof.
  intros H.
  set (w := made_mem stale_package 5 str_target_win).
  destruct (mem_performs cfg_debug stale_package [AcquireCredentials NEGOTIATE_PACKAGE] w [WNegotiate]) as [log [u|w']] eqn:E;
    [vm_compute in E; discriminate E|].
  assert (Q : exists log' w'', mem_perform cfg_debug stale_package log w' (WChallenge []) = (log', Fine (w'', Val (inl [1; 2])))).
  { vm_compute in E. injection E as <- <-. eexists. eexists. vm_compute. reflexivity. }
  destruct Q as [log' [w'' Q]].
  assert (M : mem_made stale_package 5 str_target_win w) by (vm_compute; reflexivity).
  specialize (H _ _ _ _ _ _ _ _ _ _ _ _ stale_lawful M E Q). clear M Q.
  vm_compute in E. injection E as <- <-. vm_compute in H. assert (X : [1; 2] = []); [|discriminate X]. apply H. intros [Z|Z]; discriminate Z.
Qed.

(** ** Packages that write everything: the client of Win.v *)
Lemma step_refines cfg pkg log w p o : complete_package pkg -> same_client w p -> len (mc_memory w) = 12000 ->
  exists log' w' p' r, mem_perform cfg pkg log w o = (log', Fine (w', r))
    /\ perform cfg (plain_package pkg) log p o = (log', p', r)
    /\ same_client w' p' /\ len (mc_memory w') = 12000.
Proof.
  intros Hp (S1 & S2 & S3 & S4 & S5) Lm.
  assert (O : mem_opening w o = opening p o).
  { unfold mem_opening, opening. fold (len (mc_memory w)). rewrite S1, S2, S3, Lm. reflexivity. }
  rewrite perform_step. unfold mem_step, mem_initialize. cbn zeta. rewrite opening_eq, O.
  replace (perform cfg (plain_package pkg) log p o) with (win_step cfg (plain_package pkg) log p (input_of o) (expected_of o))
    by (destruct o; reflexivity).
  unfold win_step, initialize_security_context. cbn zeta.
  replace (InitContext (w_credentials p) (w_context p) (w_target p) (option_map seen (input_of o)) MAX_MESSAGE_SIZE)
    with (opening p o) by (destruct o; reflexivity).
  set (lg := opening p o :: log). pose proof (Hp (opening p o) log) as [D [Hh Hz]]. fold lg in D, Hh, Hz.
  change (room (opening p o)) with 12000 in D.
  set (r := pkg lg) in *. destruct (m_handle r) as [h|] eqn:Hm; [|elim Hh; reflexivity].
  assert (Pr : plain_package pkg lg = mkReply (m_status r) h (m_data r)) by (unfold plain_package; cbn zeta; fold r; rewrite Hm; reflexivity).
  rewrite Pr, Hz. cbn [status out_handle out_token].
  fold (len (mc_memory w)). rewrite Lm.
  replace (length (mc_memory w) <? length (m_data r))%nat with false by (unfold len in *; lia).
  replace (12000 <? len (m_data r)) with false by lia.
  assert (Ld : N.to_nat (len (m_data r)) = length (m_data r)) by (unfold len; lia).
  assert (LS : forall d m, load (length d) (store d m) = Some d) by (intros d m; unfold store; apply load_app).
  rewrite Ld, LS.
  assert (Ls : len (store (m_data r) (mc_memory w)) = 12000).
  { unfold len. rewrite store_length; unfold len in *; lia. }
  destruct ((m_status r =? SEC_I_COMPLETE_NEEDED) || (m_status r =? SEC_I_COMPLETE_AND_CONTINUE)).
  - set (lg2 := CompleteToken h (m_data r) :: lg). pose proof (Hp (CompleteToken h (m_data r)) lg) as [D2 _]. fold lg2 in D2.
    cbn [room] in D2. set (r2 := pkg lg2) in *.
    assert (Pr2 : status (plain_package pkg lg2) = m_status r2 /\ out_token (plain_package pkg lg2) = m_data r2) by (split; reflexivity).
    destruct Pr2 as [P1 P2]. rewrite P1, P2.
    replace (length (mc_memory w) <? length (m_data r2))%nat with false by (unfold len in *; lia).
    set (nw := rewritten (m_data r) (m_data r2)).
    assert (Ln : length nw = length (m_data r)).
    { unfold nw, rewritten. rewrite firstn_length, app_length, skipn_length. unfold len in D2. lia. }
    assert (En : map Some nw ++ skipn (length (m_data r)) (mc_memory w) = store (m_data r2) (store (m_data r) (mc_memory w))).
    { unfold nw, rewritten, store. rewrite firstn_all2 by (rewrite app_length, skipn_length; unfold len in D2; lia).
      rewrite map_app, <- app_assoc, skipn_app. f_equal. rewrite map_length.
      rewrite skipn_map. replace (length (m_data r2) - length (m_data r))%nat with 0%nat by (unfold len in D2; lia). reflexivity. }
    rewrite <- En. unfold failure. fold nw.
    assert (SC : forall l, same_client (mkMem (mc_credentials w) (Some h) (mc_target w) (map Some nw ++ l) (len (m_data r)))
              (mkWin (w_credentials p) (Some h) (w_target p) nw)).
    { intros l. unfold same_client. cbn. repeat split; try assumption; [exists l; reflexivity|unfold len; rewrite Ln; reflexivity]. }
    assert (SL : len (map Some nw ++ skipn (length (m_data r)) (mc_memory w)) = 12000).
    { unfold len. rewrite app_length, map_length, skipn_length. unfold len in *. lia. }
    destruct (2147483648 <=? m_status r2); [|destruct (debug cfg && _)].
    + eexists. eexists. eexists. eexists. split; [reflexivity|]. split; [reflexivity|]. split; [apply SC|exact SL].
    + eexists. eexists. eexists. eexists. split; [reflexivity|]. split; [reflexivity|]. split; [apply SC|exact SL].
    + cbn [mc_len mc_memory w_output w_credentials w_target].
      rewrite Ld, <- Ln, load_app. rewrite Ln.
      eexists. eexists. eexists. eexists. split; [reflexivity|]. split; [reflexivity|]. split; [apply SC|exact SL].
  - assert (SC : same_client (mkMem (mc_credentials w) (Some h) (mc_target w) (store (m_data r) (mc_memory w)) (len (m_data r)))
              (mkWin (w_credentials p) (Some h) (w_target p) (m_data r))).
    { unfold same_client. cbn. repeat split; try assumption. exists (skipn (length (m_data r)) (mc_memory w)). reflexivity. }
    destruct (debug cfg && _).
    + eexists. eexists. eexists. eexists. split; [reflexivity|]. split; [reflexivity|]. split; [apply SC|exact Ls].
    + cbn [mc_len mc_memory w_output]. rewrite Ld, LS.
      eexists. eexists. eexists. eexists. split; [reflexivity|]. split; [reflexivity|]. split; [apply SC|exact Ls].
Qed.
(** With a package that writes everything, nothing is undefined and the client is that of Win.v, about which
    C51 and C63 are. *)
Lemma C86_complete_package_lem : forall cfg pkg target w os, complete_package pkg -> mem_made pkg (N.to_nat 12000) target w ->
  exists p log w' p', win_made (plain_package pkg) target p
    /\ mem_performs cfg pkg [AcquireCredentials NEGOTIATE_PACKAGE] w os = (log, Fine w')
    /\ performs cfg (plain_package pkg) [AcquireCredentials NEGOTIATE_PACKAGE] p os = (log, p')
    /\ same_client w' p'
    /\ forall o, exists log' w'' p'' r, mem_perform cfg pkg log w' o = (log', Fine (w'', r))
         /\ perform cfg (plain_package pkg) log p' o = (log', p'', r).
Proof.
  intros cfg pkg target w os Hp Hm.
  assert (M : exists p, win_made (plain_package pkg) target p /\ same_client w p /\ len (mc_memory w) = 12000).
  { remember (N.to_nat 12000) as cap eqn:Hcap. unfold mem_made, mem_new in Hm. unfold win_made, win_new.
    destruct (existsb _ _); [discriminate Hm|]. cbn zeta in *.
    change (status (plain_package pkg [AcquireCredentials SECURITY_PACKAGE])) with (m_status (pkg [AcquireCredentials SECURITY_PACKAGE])).
    destruct (failure _); [discriminate Hm|].
    destruct (m_handle (pkg [AcquireCredentials SECURITY_PACKAGE])) as [h|] eqn:E; [|discriminate Hm].
    apply (f_equal snd) in Hm. cbn [snd] in Hm. injection Hm as <-.
    exists (mkWin h None (utf8 target) []). split; [|split].
    - unfold plain_package. cbn [out_handle]. rewrite E. reflexivity.
    - unfold same_client. cbn [mc_credentials mc_context mc_target mc_memory mc_len w_credentials w_context w_target w_output].
      repeat split. eexists. reflexivity.
    - cbn [mc_memory]. unfold len. rewrite repeat_length, Hcap. apply N2Nat.id. }
  clear Hm. destruct M as [p [M [S L]]].
  assert (I : forall os log w p, same_client w p -> len (mc_memory w) = 12000 ->
    exists log' w' p', mem_performs cfg pkg log w os = (log', Fine w') /\ performs cfg (plain_package pkg) log p os = (log', p')
      /\ same_client w' p' /\ len (mc_memory w') = 12000).
  { clear - Hp. induction os as [|o os IH]; intros log w p S L.
    - exists log, w, p. repeat split; try assumption; apply S.
    - destruct (step_refines cfg pkg log w p o Hp S L) as (log1 & w1 & p1 & r & A & B & C & D).
      cbn [mem_performs performs]. rewrite A, B. apply IH; assumption. }
  destruct (I os [AcquireCredentials NEGOTIATE_PACKAGE] w p S L) as (log & w' & p' & A & B & C & D).
  exists p, log, w', p'. split; [exact M|]. split; [exact A|]. split; [exact B|]. split; [exact C|]. intros o.
  destruct (step_refines cfg pkg log w' p' o Hp C D) as (log1 & w1 & p1 & r & A1 & B1 & _).
  exists log1, w1, p1, r. split; assumption.
Qed.
Example C86_ex_lem : complete_package full_package /\ lawful_package silent_package /\ silent_failures silent_package /\ lawful_package stale_package
  /\ mem_made silent_package 5 str_target_win (mkMem 7 None [116; 101; 115; 116] (repeat None 5) 0)
  /\ mem_performs cfg_debug silent_package [AcquireCredentials NEGOTIATE_PACKAGE] (mkMem 7 None [116; 101; 115; 116] (repeat None 5) 0) [WNegotiate]
     = ([InitContext 7 None [116; 101; 115; 116] None 5; AcquireCredentials NEGOTIATE_PACKAGE], Undef UninitHandle)
  /\ snd (mem_performs cfg_debug full_package [AcquireCredentials NEGOTIATE_PACKAGE] (mkMem 7 None [116; 101; 115; 116] (repeat None 5) 0) [WNegotiate; WChallenge [8]])
     = Fine (mkMem 7 (Some 10) [116; 101; 115; 116] [Some 6; Some 5; Some 3; None; None] 1).
Proof.
  split; [exact full_complete|]. split; [exact silent_lawful|]. split; [exact silent_silent|].
  split; [exact stale_lawful|]. vm_compute. auto.
Qed.

(** ** Handles *)
Lemma initialize_log pkg log w input log' e : mem_initialize pkg log w input = (log', e) ->
  exists a, log' = a ++ log /\ Forall (fun c => match c with FreeCredentials _ | DeleteContext _ => False | _ => True end) a.
Proof.
  unfold mem_initialize. cbn zeta. set (c := InitContext _ _ _ _ _). intros H.
  assert (X : log' = c :: log \/ exists x y, log' = CompleteToken x y :: c :: log).
  { repeat match type of H with
           | context [match ?b with _ => _ end] => destruct b; try (apply (f_equal fst) in H; cbn [fst] in H; subst log'; solve [left; reflexivity|right; eexists; eexists; reflexivity])
           end. }
  destruct X as [->|[x [y ->]]]; [exists [c]|exists [CompleteToken x y; c]]; (split; [reflexivity|]); repeat constructor.
Qed.
Lemma performs_log cfg pkg os : forall log w log' e, mem_performs cfg pkg log w os = (log', e) ->
  exists a, log' = a ++ log /\ Forall (fun c => match c with FreeCredentials _ | DeleteContext _ => False | _ => True end) a.
Proof.
  induction os as [|o os IH]; intros log w log' e; cbn [mem_performs].
  - intros H. apply (f_equal fst) in H. cbn [fst] in H. subst log'. exists []. split; [reflexivity|constructor].
  - rewrite perform_step. unfold mem_step. destruct (mem_initialize pkg log w (input_of o)) as [log1 e1] eqn:E.
    apply initialize_log in E. destruct E as [a [-> Ha]].
    assert (Fin : forall l2 e2, (l2, e2) = (log', e) -> l2 = a ++ log ->
      exists a0, log' = a0 ++ log /\ Forall (fun c => match c with FreeCredentials _ | DeleteContext _ => False | _ => True end) a0).
    { intros l2 e2 Q Q2. apply (f_equal fst) in Q. cbn [fst] in Q. subst log' l2. exists a. split; [reflexivity|exact Ha]. }
    assert (Go : forall w2, mem_performs cfg pkg (a ++ log) w2 os = (log', e) ->
      exists a0, log' = a0 ++ log /\ Forall (fun c => match c with FreeCredentials _ | DeleteContext _ => False | _ => True end) a0).
    { intros w2 Q. apply IH in Q. destruct Q as [b [-> Hb]]. exists (b ++ a). split; [apply app_assoc|].
      apply Forall_app. split; assumption. }
    destruct e1 as [u|[w1 [done|er]]].
    + intros Q. apply (Fin _ _ Q). reflexivity.
    + destruct (debug cfg && _); [apply Go|]. destruct (load _ _); [apply Go|]. intros Q. apply (Fin _ _ Q). reflexivity.
    + apply Go.
Qed.
(** From [new] to the end of the client: no handle is released, whatever the package does and the user calls. *)
Lemma C87_never_released_lem : forall cfg pkg cap target w os log w', mem_made pkg cap target w ->
  mem_performs cfg pkg [AcquireCredentials NEGOTIATE_PACKAGE] w os = (log, Fine w') ->
  In (mc_credentials w) (given_out pkg (mem_drop log w'))
  /\ (forall k, mc_context w' = Some k -> In k (given_out pkg (mem_drop log w')))
  /\ forall h c, In c (mem_drop log w') -> ~ releases h c.
Proof.
  intros cfg pkg cap target w os log w' Hm H. unfold mem_drop. split; [|split].
  - pose proof (performs_log _ _ _ _ _ _ _ H) as [a [-> _]].
    unfold mem_made, mem_new in Hm. destruct (existsb _ _); [discriminate Hm|]. cbn zeta in Hm.
    destruct (failure _); [discriminate Hm|].
    destruct (m_handle (pkg [AcquireCredentials SECURITY_PACKAGE])) as [h|] eqn:E; [|discriminate Hm].
    apply (f_equal snd) in Hm. cbn [snd] in Hm. injection Hm as <-. cbn [mc_credentials]. clear H.
    assert (G : forall a l, In h (given_out pkg l) -> In h (given_out pkg (a ++ l))).
    { clear. induction a as [|c a IH]; intros l Q; [exact Q|]. cbn [app given_out]. apply in_or_app. right. apply IH. exact Q. }
    apply G. cbn [given_out]. change NEGOTIATE_PACKAGE with SECURITY_PACKAGE. rewrite E. left. reflexivity.
  - assert (K0 : forall k, mc_context w = Some k -> In k (given_out pkg [AcquireCredentials NEGOTIATE_PACKAGE])).
    { unfold mem_made, mem_new in Hm. destruct (existsb _ _); [discriminate Hm|]. cbn zeta in Hm.
      destruct (failure _); [discriminate Hm|]. destruct (m_handle _); [|discriminate Hm].
      apply (f_equal snd) in Hm. cbn [snd] in Hm. injection Hm as <-. discriminate. }
    clear Hm. revert K0 H. generalize [AcquireCredentials NEGOTIATE_PACKAGE]. revert w.
    induction os as [|o os IH]; intros w l K0 H; cbn [mem_performs] in H.
    + injection H as <- <-. exact K0.
    + rewrite perform_step in H. unfold mem_step in H.
      destruct (mem_initialize pkg l w (input_of o)) as [log1 e1] eqn:E.
      assert (K1 : forall w1 x, e1 = Fine (w1, x) -> forall k, mc_context w1 = Some k -> In k (given_out pkg log1)).
      { clear H. intros w1 x -> k Q. unfold mem_initialize in E. cbn zeta in E. set (c := InitContext _ _ _ _ _) in *.
        assert (X : forall k', match m_handle (pkg (c :: l)) with Some h => Some h | None => mc_context w end = Some k' ->
                    In k' (given_out pkg (c :: l))).
        { intros k' Z. change (given_out pkg (c :: l)) with
            (match m_handle (pkg (c :: l)) with Some h => [h] | None => [] end ++ given_out pkg l).
          destruct (m_handle (pkg (c :: l))) as [h|].
          - injection Z as ->. left. reflexivity.
          - apply K0. exact Z. }
        destruct (_ <? _)%nat; [discriminate E|].
        destruct (match m_handle (pkg (c :: l)) with Some h => Some h | None => mc_context w end) as [ctx|]; [|discriminate E].
        specialize (X ctx eq_refl).
        destruct (_ <? _); [discriminate E|]. destruct (load _ _); [|discriminate E].
        destruct (_ || _).
        - set (c2 := CompleteToken _ _) in *. destruct (_ <? _)%nat; [discriminate E|].
          assert (X2 : In ctx (given_out pkg (c2 :: c :: l))) by exact X.
          destruct (failure _); injection E as <- <- <-; cbn [mc_context] in Q; injection Q as <-; exact X2.
        - injection E as <- <- <-. cbn [mc_context] in Q. injection Q as <-. exact X. }
      destruct e1 as [u|[w1 x]]; [discriminate H|]. specialize (K1 w1 x eq_refl).
      assert (H' : mem_performs cfg pkg log1 w1 os = (log, Fine w')).
      { destruct x as [done|er]; [|exact H]. destruct (debug cfg && _); [exact H|]. destruct (load _ _); [exact H|discriminate H]. }
      exact (IH w1 log1 K1 H').
  - pose proof (performs_log _ _ _ _ _ _ _ H) as [a [-> Ha]]. intros h c I R. apply in_app_or in I. destruct I as [I|[<-|[]]]; [|exact R].
    rewrite Forall_forall in Ha. specialize (Ha c I). destruct c; (exact R || exact Ha).
Qed.
Lemma C87_released_refuted_lem : ~ (forall cfg pkg cap target w os log w', complete_package pkg -> mem_made pkg cap target w ->
  mem_performs cfg pkg [AcquireCredentials NEGOTIATE_PACKAGE] w os = (log, Fine w') ->
  forall h, In h (given_out pkg log) -> exists c, In c (mem_drop log w') /\ releases h c).
Proof.
  intros H. set (w := made_mem full_package 5 str_target_win).
  destruct (mem_performs cfg_debug full_package [AcquireCredentials NEGOTIATE_PACKAGE] w [WNegotiate]) as [log [u|w']] eqn:E;
    [vm_compute in E; discriminate E|].
  assert (M : mem_made full_package 5 str_target_win w) by (vm_compute; reflexivity).
  destruct (C87_never_released_lem _ _ _ _ _ _ _ _ M E) as [A [_ B]].
  specialize (H _ _ _ _ _ _ _ _ full_complete M E _ A). destruct H as [c [I R]]. exact (B _ c I R).
Qed.
Example C87_ex_lem : let w := mkMem 7 None [116; 101; 115; 116] (repeat None 5) 0 in
  mem_made full_package 5 str_target_win w
  /\ exists log w', mem_performs cfg_debug full_package [AcquireCredentials NEGOTIATE_PACKAGE] w [WNegotiate; WChallenge [8]] = (log, Fine w')
     /\ given_out full_package log = [10; 9; 7].
Proof.
  split; [vm_compute; reflexivity|]. eexists. eexists. split; [vm_compute; reflexivity|]. vm_compute. reflexivity.
Qed.
