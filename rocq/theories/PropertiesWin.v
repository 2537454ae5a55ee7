(** Property theorems proved in [FactsWin.v]; generated by tools/gen.py. *)
From Verif Require Import Base Unicode Win Spec SpecWin Samples SamplesWin FactsWin.

(** * C51: The Windows client reports failures of the security package *)
(** Whatever the package answers and whatever the user calls, the conversation is conducted properly. *)
Theorem C51_context_passed_on : forall cfg pkg target w os log w',
  win_made pkg target w -> performs cfg pkg [AcquireCredentials NEGOTIATE_PACKAGE] w os = (log, w') ->
  proper pkg (w_credentials w) (utf8 target) log.
Proof. exact C51_context_passed_on_lem. Qed.
Print Assumptions C51_context_passed_on.
(** The errors that are reported: those of the completion of a token, nothing else. *)
Theorem C51_errors_reported : forall cfg pkg log w o log' w' r,
  perform cfg pkg log w o = (log', w', r) ->
  let first := opening w o :: log in
  (forall st, r = Val (inr (StatusError st)) <->
    wants_completion (status (pkg first)) /\ log' = CompleteToken (out_handle (pkg first)) (out_token (pkg first)) :: first
    /\ status (pkg log') = st /\ 2147483648 <= st)
  /\ r <> Val (inr NulError).
Proof. exact C51_errors_reported_lem. Qed.
Print Assumptions C51_errors_reported.
(** Without completion: the bytes returned are those the package wrote, and a
    debug build panics when the package has no further round to offer after
    [negotiate] or wants one after [challenge]. *)
Theorem C51_returned : forall cfg pkg log w o log' w' r,
  perform cfg pkg log w o = (log', w', r) ->
  let first := opening w o :: log in
  ~ wants_completion (status (pkg first)) ->
  log' = first /\ w_output w' = out_token (pkg first) /\ w_context w' = Some (out_handle (pkg first))
  /\ r = if debug cfg && match o with
                         | WNegotiate => negb ((status (pkg first) =? 590610) || (status (pkg first) =? 590612))
                         | WChallenge _ => (status (pkg first) =? 590610) || (status (pkg first) =? 590612)
                         end
         then Panic PDebugAssert else Val (inl (out_token (pkg first))).
Proof. exact C51_returned_lem. Qed.
Print Assumptions C51_returned.
(** With completion: the error of the completion, or the token as the package left it. *)
Theorem C51_completed : forall cfg pkg log w o log' w' out,
  perform cfg pkg log w o = (log', w', Val (inl out)) ->
  let first := opening w o :: log in wants_completion (status (pkg first)) ->
    log' = CompleteToken (out_handle (pkg first)) (out_token (pkg first)) :: first
    /\ status (pkg log') < 2147483648
    /\ (len (out_token (pkg log')) = len (out_token (pkg first)) -> out = out_token (pkg log')).
Proof. exact C51_completed_lem. Qed.
Print Assumptions C51_completed.
(** A failure status of the package itself is not reported. *)
Theorem C51_failure_reported_refuted : ~ (forall cfg pkg target w message log' w' r,
  win_made pkg target w ->
  win_challenge cfg pkg [AcquireCredentials NEGOTIATE_PACKAGE] w message = (log', w', r) ->
  (exists c rest, log' = c :: rest /\ failure (status (pkg log')) = true) ->
  exists e, r = Val (inr e)).
Proof. exact C51_failure_reported_refuted_lem. Qed.
Print Assumptions C51_failure_reported_refuted.
Example C51_context_passed_on_ex :
  win_made rounds_package str_target_win rounds_client
  /\ performs cfg_debug rounds_package [AcquireCredentials NEGOTIATE_PACKAGE] rounds_client [WNegotiate; WChallenge [8; 8]]
     = ([InitContext 7 (Some 9) [116; 101; 115; 116] (Some [8; 8]) 12000; CompleteToken 9 [1; 2; 3];
         InitContext 7 None [116; 101; 115; 116] None 12000; AcquireCredentials [78; 101; 103; 111; 116; 105; 97; 116; 101]],
        mkWin 7 (Some 10) [116; 101; 115; 116] [6]).
Proof. exact C51_context_passed_on_ex_lem. Qed.
Example C51_completed_ex : exists w',
  perform cfg_debug rounds_package [AcquireCredentials NEGOTIATE_PACKAGE] rounds_client WNegotiate
  = ([CompleteToken 9 [1; 2; 3]; InitContext 7 None [116; 101; 115; 116] None 12000; AcquireCredentials NEGOTIATE_PACKAGE],
     w', Val (inl [4; 5; 3])).
Proof. exact C51_completed_ex_lem. Qed.

(** * C63: Creating the Windows client *)
Theorem C63_new : forall pkg log target, is_string target ->
  let r := pkg (AcquireCredentials NEGOTIATE_PACKAGE :: log) in
  (In 0 target -> win_new pkg log target = (log, inr NulError))
  /\ (~ In 0 target -> 2147483648 <= status r ->
      win_new pkg log target = (AcquireCredentials NEGOTIATE_PACKAGE :: log, inr (StatusError (status r))))
  /\ (~ In 0 target -> status r < 2147483648 ->
      win_new pkg log target = (AcquireCredentials NEGOTIATE_PACKAGE :: log, inl (mkWin (out_handle r) None (utf8 target) []))).
Proof. exact C63_new_lem. Qed.
Print Assumptions C63_new.
(** The target the package is given is the one given to [new], cut nowhere:
    the terminating 0 the package looks for is not part of it. *)
Theorem C63_target_whole : forall pkg log target log' w, is_string target ->
  win_new pkg log target = (log', inl w) -> w_target w = utf8 target /\ ~ In 0 (w_target w) /\ w_context w = None.
Proof. exact C63_target_whole_lem. Qed.
Print Assumptions C63_target_whole.
Example C63_ex : is_string str_target_win /\ ~ In 0 str_target_win
  /\ win_new denying_package [] str_target_win
     = ([AcquireCredentials [78; 101; 103; 111; 116; 105; 97; 116; 101]], inl (mkWin 7 None [116; 101; 115; 116] []))
  /\ win_new denying_package [] [116; 0] = ([], inr NulError).
Proof. exact C63_ex_lem. Qed.
