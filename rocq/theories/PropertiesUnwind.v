(** Property theorems proved in [FactsUnwind.v]; generated by tools/gen.py. *)
From Verif Require Import Base Nom Unicode Wire Structures Prims Messages Crypto Client Unwind Spec SpecBuild SpecCrypto SpecClient SpecUnwind Lib Encode Decode RoundTrip Parse Samples FactsEncode FactsDecode FactsBuild DesKey RealPrims FactsCrypto SamplesClient History SamplesUnwind Reply FactsClient FactsTrace FactsUnwind.

(** * C105: Calls that panic half-way leave the client usable *)
(** After calls that panicked here and there the client is, but for its buffer,
    as after the calls that count, and answers the next call as Client.v says. *)
Theorem C105_like_before : forall cfg P e level user dom pw target c h o m,
  made cfg P e level user dom pw target c ->
  same_but_buffer (u_run cfg P c h) (run cfg P c (counted h))
  /\ snd (u_step cfg P (u_run cfg P c h) (o, m)) = sight o m (snd (step cfg P (run cfg P c (counted h)) o)).
Proof. exact C105_like_before_lem. Qed.
Print Assumptions C105_like_before.
(** A panic that is not about standard error leaves all but the buffer as it
    was, and all that is seen later is as if the call had not been made. *)
Theorem C105_panic_keeps : forall cfg P e level user dom pw target c h o w,
  made cfg P e level user dom pw target c ->
  let c' := u_run cfg P c h in
  snd (u_step cfg P c' o) = SeenPanic w -> w <> NoStderr ->
  same_but_buffer (fst (u_step cfg P c' o)) c'
  /\ forall k, sights cfg P (fst (u_step cfg P c' o)) k = sights cfg P c' k.
Proof. exact C105_panic_keeps_lem. Qed.
Print Assumptions C105_panic_keeps.
(** Only a negotiation can fail for standard error, and then it has taken
    place: client and buffer are those of the call in which nothing went wrong,
    which would have returned the message. *)
Theorem C105_stderr : forall cfg P e level user dom pw target c h o m,
  made cfg P e level user dom pw target c ->
  let c' := u_run cfg P c h in
  snd (u_step cfg P c' (o, m)) = SeenPanic NoStderr ->
  o = OpNegociate
  /\ fst (u_step cfg P c' (o, m)) = fst (u_step cfg P c' (o, calm))
  /\ snd (u_step cfg P c' (o, calm)) = SeenBytes (cl_buffer (fst (u_step cfg P c' (o, m)))).
Proof. exact C105_stderr_lem. Qed.
Print Assumptions C105_stderr.
(** What failed serialisations leave in the buffer is never seen. *)
Theorem C105_no_remains : forall cfg P e level user dom pw target c h h',
  made cfg P e level user dom pw target c -> same_but_torn h h' ->
  sights cfg P c h = sights cfg P c h'.
Proof. exact C105_no_remains_lem. Qed.
Print Assumptions C105_no_remains.
(** False: a call that panics leaves the protocol state as it was. *)
Theorem C105_panic_keeps_refuted : ~ (forall cfg P e level user dom pw target c h o w,
  made cfg P e level user dom pw target c ->
  snd (u_step cfg P (u_run cfg P c h) o) = SeenPanic w ->
  cl_state (fst (u_step cfg P (u_run cfg P c h) o)) = cl_state (u_run cfg P c h)).
Proof. exact C105_panic_keeps_refuted_lem. Qed.
Print Assumptions C105_panic_keeps_refuted.
(** Standard error is closed during the negotiation and no random bytes are to
    be had for the first reply; and a negotiation that does not fit leaves
    bytes in the buffer. *)
Example C105_ex :
  made cfg_debug real_prims host_env 3 str_User str_Domain str_Password str_target (sample_client 3)
  /\ sights cfg_debug real_prims (sample_client 3) bumpy_history
     = [SeenPanic NoStderr; SeenUnit; SeenPanic NoRandomBytes; SeenBytes (sample_reply 3 sealed_challenge)]
  /\ counted bumpy_history = [OpNegociate; OpRecvChallenge sealed_challenge; OpAuthenticate sample_entropy]
  /\ made cfg_debug numb_prims bare_env 3 str_User (long_domain 65536) str_Password [] (long_client 65536)
  /\ snd (u_step cfg_debug numb_prims (long_client 65536) (OpNegociate, leaves_bytes)) = SeenPanic (Code PExpect)
  /\ cl_buffer (fst (u_step cfg_debug numb_prims (long_client 65536) (OpNegociate, leaves_bytes))) = [1; 2; 3].
Proof. exact C105_ex_lem. Qed.
