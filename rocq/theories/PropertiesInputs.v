(** Property theorems proved in [FactsInputs.v]; generated by tools/gen.py. *)
From Verif Require Import Base Unicode Win Spec SpecWin Samples SamplesWin FactsWin SpecInputs FactsInputs.

(** * C135: What the security package is told *)
(** Messages of less than 4 GiB reach the package whole and in order, one round for each call,
    whatever the package answered before. *)
Theorem C135_whole : forall cfg pkg target w os log w', win_made pkg target w ->
  performs cfg pkg [AcquireCredentials NEGOTIATE_PACKAGE] w os = (log, w') ->
  (forall m, In (WChallenge m) os -> len m < 2 ^ 32) ->
  map snd (rounds log) = map meant os.
Proof. exact C135_whole_lem. Qed.
Print Assumptions C135_whole.
(** Of longer ones the package sees a beginning: as many bytes as the length has in its lowest
    32 bits. *)
Theorem C135_cut : forall cfg pkg target w os log w', win_made pkg target w ->
  performs cfg pkg [AcquireCredentials NEGOTIATE_PACKAGE] w os = (log, w') ->
  map snd (rounds log) = map (fun o => match o with
    | WNegotiate => None
    | WChallenge m => Some (firstn (N.to_nat (len m mod 2 ^ 32)) m)
    end) os.
Proof. exact C135_cut_lem. Qed.
Print Assumptions C135_cut.
(** A client begins a conversation once, with its first call.  All others go on with the
    context there is, also after a failure, and also [negotiate]. *)
Theorem C135_once : forall cfg pkg target w o os log w', win_made pkg target w ->
  performs cfg pkg [AcquireCredentials NEGOTIATE_PACKAGE] w (o :: os) = (log, w') ->
  map begins (rounds log) = true :: repeat false (length os).
Proof. exact C135_once_lem. Qed.
Print Assumptions C135_once.
(** A message, a refusal, and the attempt to begin again. *)
Example C135_ex :
  win_made denying_package str_target_win denied_client
  /\ exists log w', performs cfg_release denying_package [AcquireCredentials NEGOTIATE_PACKAGE] denied_client [WNegotiate; WChallenge [1; 2; 3]; WNegotiate] = (log, w')
     /\ rounds log = [(None, None); (Some 0, Some [1; 2; 3]); (Some 0, None)] /\ failure (status (denying_package log)) = true.
Proof. exact C135_ex_lem. Qed.
(** Every message should reach the package whole: false, one of 4 GiB arrives empty. *)
Theorem C135_whole_refuted :
  ~ (forall cfg pkg target w os log w', win_made pkg target w ->
     performs cfg pkg [AcquireCredentials NEGOTIATE_PACKAGE] w os = (log, w') ->
     map snd (rounds log) = map meant os).
Proof. exact C135_whole_refuted_lem. Qed.
Print Assumptions C135_whole_refuted.
(** [negotiate] should begin a conversation: false, only the first call does. *)
Theorem C135_again_refuted :
  ~ (forall cfg pkg target w os log w', win_made pkg target w ->
     performs cfg pkg [AcquireCredentials NEGOTIATE_PACKAGE] w (os ++ [WNegotiate]) = (log, w') ->
     exists x l, rounds log = l ++ [x] /\ begins x = true).
Proof. exact C135_again_refuted_lem. Qed.
Print Assumptions C135_again_refuted.
