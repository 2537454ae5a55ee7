(** Property theorems proved in [FactsWinMem.v]; generated by tools/gen.py. *)
From Verif Require Import Base Unicode Win WinMem Spec SpecWin SpecWinMem Lib Samples SamplesWin FactsWin FactsWinMem.

(** * C86: The Windows client reads only memory that was written *)
(** Exactly when an operation is undefined, for packages that keep the contract. *)
Theorem C86_exactly : forall cfg pkg log w o, lawful_package pkg ->
  let capacity := N.of_nat (length (mc_memory w)) in
  let r := pkg (mem_opening w o :: log) in
  (exists log' u, mem_perform cfg pkg log w o = (log', Undef u))
  <-> 2147483648 <= m_status r
      /\ (m_handle r = None /\ mc_context w = None
          \/ exists i, len (m_data r) <= i < claimed r capacity
                       /\ nth_error (mc_memory w) (N.to_nat i) = Some None).
Proof. exact C86_exactly_lem. Qed.
Print Assumptions C86_exactly.
(** A call that succeeds: defined, and without completion the bytes returned are those just written. *)
Theorem C86_success : forall cfg pkg log w o, lawful_package pkg ->
  let r := pkg (mem_opening w o :: log) in m_status r < 2147483648 ->
  exists log' w' res, mem_perform cfg pkg log w o = (log', Fine (w', res))
    /\ (~ wants_completion (m_status r) -> log' = mem_opening w o :: log
        /\ forall out, res = Val (inl out) -> out = m_data r).
Proof. exact C86_success_lem. Qed.
Print Assumptions C86_success.
(** Failures that write nothing, as they may: undefined in the first call, and in later ones unless the
    whole buffer had been used before. *)
Theorem C86_silent_failure : forall cfg pkg log w o, lawful_package pkg -> silent_failures pkg ->
  2147483648 <= m_status (pkg (mem_opening w o :: log)) ->
  (mc_context w = None -> mem_perform cfg pkg log w o = (mem_opening w o :: log, Undef UninitHandle))
  /\ (mc_context w <> None -> In None (mc_memory w) ->
      mem_perform cfg pkg log w o = (mem_opening w o :: log, Undef UninitBytes)).
Proof. exact C86_silent_failure_lem. Qed.
Print Assumptions C86_silent_failure.
Theorem C86_defined_refuted : ~ (forall cfg pkg cap target w os, lawful_package pkg -> mem_made pkg cap target w ->
  exists log w', mem_performs cfg pkg [AcquireCredentials NEGOTIATE_PACKAGE] w os = (log, Fine w')).
Proof. exact C86_defined_refuted_lem. Qed.
Print Assumptions C86_defined_refuted.
(** The bytes returned after a failure can be those of an earlier token. *)
Theorem C86_fresh_refuted : ~ (forall cfg pkg cap target w os log w' o log' w'' out, lawful_package pkg -> mem_made pkg cap target w ->
  mem_performs cfg pkg [AcquireCredentials NEGOTIATE_PACKAGE] w os = (log, Fine w') ->
  mem_perform cfg pkg log w' o = (log', Fine (w'', Val (inl out))) ->
  ~ wants_completion (m_status (pkg (mem_opening w' o :: log))) ->
  out = m_data (pkg (mem_opening w' o :: log))).
Proof. exact C86_fresh_refuted_lem. Qed.
Print Assumptions C86_fresh_refuted.
(** With a package that writes everything, nothing is undefined and the client is that of Win.v, about which
    C51 and C63 are. *)
Theorem C86_complete_package : forall cfg pkg target w os, complete_package pkg -> mem_made pkg (N.to_nat 12000) target w ->
  exists p log w' p', win_made (plain_package pkg) target p
    /\ mem_performs cfg pkg [AcquireCredentials NEGOTIATE_PACKAGE] w os = (log, Fine w')
    /\ performs cfg (plain_package pkg) [AcquireCredentials NEGOTIATE_PACKAGE] p os = (log, p')
    /\ same_client w' p'
    /\ forall o, exists log' w'' p'' r, mem_perform cfg pkg log w' o = (log', Fine (w'', r))
         /\ perform cfg (plain_package pkg) log p' o = (log', p'', r).
Proof. exact C86_complete_package_lem. Qed.
Print Assumptions C86_complete_package.
Example C86_ex : complete_package full_package /\ lawful_package silent_package /\ silent_failures silent_package /\ lawful_package stale_package
  /\ mem_made silent_package 5 str_target_win (mkMem 7 None [116; 101; 115; 116] (repeat None 5) 0)
  /\ mem_performs cfg_debug silent_package [AcquireCredentials NEGOTIATE_PACKAGE] (mkMem 7 None [116; 101; 115; 116] (repeat None 5) 0) [WNegotiate]
     = ([InitContext 7 None [116; 101; 115; 116] None 5; AcquireCredentials NEGOTIATE_PACKAGE], Undef UninitHandle)
  /\ snd (mem_performs cfg_debug full_package [AcquireCredentials NEGOTIATE_PACKAGE] (mkMem 7 None [116; 101; 115; 116] (repeat None 5) 0) [WNegotiate; WChallenge [8]])
     = Fine (mkMem 7 (Some 10) [116; 101; 115; 116] [Some 6; Some 5; Some 3; None; None] 1).
Proof. exact C86_ex_lem. Qed.

(** * C87: Handles of the security package are given back *)
(** From [new] to the end of the client: no handle is released, whatever the package does and the user calls. *)
Theorem C87_never_released : forall cfg pkg cap target w os log w', mem_made pkg cap target w ->
  mem_performs cfg pkg [AcquireCredentials NEGOTIATE_PACKAGE] w os = (log, Fine w') ->
  In (mc_credentials w) (given_out pkg (mem_drop log w'))
  /\ (forall k, mc_context w' = Some k -> In k (given_out pkg (mem_drop log w')))
  /\ forall h c, In c (mem_drop log w') -> ~ releases h c.
Proof. exact C87_never_released_lem. Qed.
Print Assumptions C87_never_released.
Theorem C87_released_refuted : ~ (forall cfg pkg cap target w os log w', complete_package pkg -> mem_made pkg cap target w ->
  mem_performs cfg pkg [AcquireCredentials NEGOTIATE_PACKAGE] w os = (log, Fine w') ->
  forall h, In h (given_out pkg log) -> exists c, In c (mem_drop log w') /\ releases h c).
Proof. exact C87_released_refuted_lem. Qed.
Print Assumptions C87_released_refuted.
Example C87_ex : let w := mkMem 7 None [116; 101; 115; 116] (repeat None 5) 0 in
  mem_made full_package 5 str_target_win w
  /\ exists log w', mem_performs cfg_debug full_package [AcquireCredentials NEGOTIATE_PACKAGE] w [WNegotiate; WChallenge [8]] = (log, Fine w')
     /\ given_out full_package log = [10; 9; 7].
Proof. exact C87_ex_lem. Qed.
