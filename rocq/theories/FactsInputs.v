(** Facts about what the security package is told. *)
From Coq Require Import ZifyBool ZifyNat ZifyN.
From Verif Require Import Base Unicode Win Spec SpecWin Samples SamplesWin FactsWin SpecInputs.
Ltac Zify.zify_post_hook ::= Z.div_mod_to_equations.

Lemma perform_rounds cfg pkg log w o log' w' r : perform cfg pkg log w o = (log', w', r) ->
  rounds log' = rounds log ++ [(w_context w, match o with WNegotiate => None | WChallenge m => Some (seen m) end)]
  /\ w_context w' <> None.
Proof.
  intros H.
  assert (K : exists e, win_step cfg pkg log w (match o with WNegotiate => None | WChallenge m => Some m end) e = (log', w', r)).
  { destruct o; [exists false|exists true]; exact H. }
  destruct K as [e K]. revert K. unfold win_step, initialize_security_context. cbn zeta.
  set (lg := InitContext _ _ _ _ _ :: log).
  assert (R : rounds lg = rounds log ++ [(w_context w, match o with WNegotiate => None | WChallenge m => Some (seen m) end)]).
  { unfold lg. cbn [rounds]. now destruct o. }
  destruct (_ || _); [destruct (failure _)|]; try destruct (debug cfg && _); intros K;
    pose proof (f_equal (fun x => fst (fst x)) K) as H1; pose proof (f_equal (fun x => snd (fst x)) K) as H2; cbn [fst snd] in H1, H2;
    subst log' w'; cbn [rounds w_context]; (split; [exact R|discriminate]).
Qed.
Lemma performs_rounds cfg pkg : forall os log w log' w', performs cfg pkg log w os = (log', w') ->
  map snd (rounds log') = map snd (rounds log) ++ map (fun o => option_map seen (meant o)) os
  /\ map begins (rounds log') = map begins (rounds log)
     ++ match os with [] => [] | _ :: r => begins (w_context w, None) :: repeat false (length r) end.
Proof.
  induction os as [|o os IH]; intros log w log' w' H; cbn [performs] in H.
  - injection H as <- <-. now rewrite !app_nil_r.
  - destruct (perform cfg pkg log w o) as [[log1 w1] r1] eqn:E.
    destruct (perform_rounds _ _ _ _ _ _ _ _ E) as [R1 X1]. destruct (IH _ _ _ _ H) as [A B]. rewrite A, B, R1, !map_app, <- !app_assoc.
    split.
    + f_equal. cbn [map app snd]. now destruct o.
    + f_equal. cbn [map app length]. f_equal. destruct os as [|o' os]; [reflexivity|]. cbn [length repeat]. f_equal.
      unfold begins. cbn [fst]. now destruct (w_context w1).
Qed.
Lemma made_context pkg target w : win_made pkg target w -> w_context w = None.
Proof.
  unfold win_made, win_new. destruct (existsb _ _); [discriminate|]. cbn zeta. destruct (failure _); [discriminate|].
  intros H. injection H as <-. reflexivity.
Qed.

(** ** C135 *)
(** Messages of less than 4 GiB reach the package whole and in order, one round for each call,
    whatever the package answered before. *)
Lemma C135_whole_lem : forall cfg pkg target w os log w', win_made pkg target w ->
  performs cfg pkg [AcquireCredentials NEGOTIATE_PACKAGE] w os = (log, w') ->
  (forall m, In (WChallenge m) os -> len m < 2 ^ 32) ->
  map snd (rounds log) = map meant os.
Proof.
  intros cfg pkg target w os log w' M H S. destruct (performs_rounds _ _ _ _ _ _ _ H) as [A _]. rewrite A. cbn [rounds map app].
  apply map_ext_in. intros [|m] I; [reflexivity|]. cbn [meant option_map]. specialize (S m I). f_equal. unfold seen.
  change (2 ^ 32) with 4294967296 in S. rewrite N.mod_small by exact S. unfold len. rewrite Nat2N.id. apply firstn_all.
Qed.
(** Of longer ones the package sees a beginning: as many bytes as the length has in its lowest
    32 bits. *)
Lemma C135_cut_lem : forall cfg pkg target w os log w', win_made pkg target w ->
  performs cfg pkg [AcquireCredentials NEGOTIATE_PACKAGE] w os = (log, w') ->
  map snd (rounds log) = map (fun o => match o with
    | WNegotiate => None
    | WChallenge m => Some (firstn (N.to_nat (len m mod 2 ^ 32)) m)
    end) os.
Proof.
  intros cfg pkg target w os log w' M H. destruct (performs_rounds _ _ _ _ _ _ _ H) as [A _]. rewrite A. cbn [rounds map app].
  apply map_ext. now intros [|m].
Qed.
(** A client begins a conversation once, with its first call.  All others go on with the
    context there is, also after a failure, and also [negotiate]. *)
Lemma C135_once_lem : forall cfg pkg target w o os log w', win_made pkg target w ->
  performs cfg pkg [AcquireCredentials NEGOTIATE_PACKAGE] w (o :: os) = (log, w') ->
  map begins (rounds log) = true :: repeat false (length os).
Proof.
  intros cfg pkg target w o os log w' M H. destruct (performs_rounds _ _ _ _ _ _ _ H) as [_ B]. rewrite B. cbn [rounds map app].
  now rewrite (made_context _ _ _ M).
Qed.
(** A message, a refusal, and the attempt to begin again. *)
Example C135_ex_lem :
  win_made denying_package str_target_win denied_client
  /\ exists log w', performs cfg_release denying_package [AcquireCredentials NEGOTIATE_PACKAGE] denied_client [WNegotiate; WChallenge [1; 2; 3]; WNegotiate] = (log, w')
     /\ rounds log = [(None, None); (Some 0, Some [1; 2; 3]); (Some 0, None)] /\ failure (status (denying_package log)) = true.
Proof. split; [reflexivity|]. do 2 eexists. split; [reflexivity|]. split; reflexivity. Qed.
(** Every message should reach the package whole: false, one of 4 GiB arrives empty. *)
Lemma C135_whole_refuted_lem :
  ~ (forall cfg pkg target w os log w', win_made pkg target w ->
     performs cfg pkg [AcquireCredentials NEGOTIATE_PACKAGE] w os = (log, w') ->
     map snd (rounds log) = map meant os).
Proof.
  intros H. destruct C135_ex_lem as [M _].
  assert (B : exists m : bytes, len m = 4294967296) by (exists (repeat 0 (N.to_nat 4294967296)); unfold len; now rewrite repeat_length, N2Nat.id).
  destruct B as [m L].
  destruct (performs cfg_release denying_package [AcquireCredentials NEGOTIATE_PACKAGE] denied_client [WChallenge m]) as [log w'] eqn:E.
  pose proof (H _ _ _ _ _ _ _ M E) as X. rewrite (C135_cut_lem _ _ _ _ _ _ _ M E) in X. cbn [map] in X. rewrite L in X.
  change (N.to_nat (4294967296 mod 2 ^ 32)) with 0%nat in X. cbn [firstn meant] in X. injection X as X. subst m. discriminate L.
Qed.
(** [negotiate] should begin a conversation: false, only the first call does. *)
Lemma C135_again_refuted_lem :
  ~ (forall cfg pkg target w os log w', win_made pkg target w ->
     performs cfg pkg [AcquireCredentials NEGOTIATE_PACKAGE] w (os ++ [WNegotiate]) = (log, w') ->
     exists x l, rounds log = l ++ [x] /\ begins x = true).
Proof.
  intros H. destruct C135_ex_lem as (M & log & w' & E & R & _).
  destruct (H _ _ _ _ [WNegotiate; WChallenge [1; 2; 3]] _ _ M E) as (x & l & X & B). rewrite R in X.
  change [(None, None); (Some 0, Some [1; 2; 3]); (Some 0, None)] with ([(None, None); (Some 0, Some [1; 2; 3])] ++ [(Some 0, @None bytes)]) in X.
  apply app_inj_tail in X as [_ X]. subst x. discriminate B.
Qed.
