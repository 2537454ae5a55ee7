(** Property theorems proved in [FactsOs.v]; generated by tools/gen.py. *)
From Verif Require Import Base Nom Unicode Wire Structures Prims Messages Crypto Client Os Spec SpecCrypto SpecClient SpecBuild SpecHandshake SpecOs Lib Encode Decode RoundTrip Parse Samples FactsEncode FactsDecode FactsBuild DesKey RealPrims FactsCrypto SamplesClient SamplesOs History Reply FactsClient FactsReply FactsTrace FactsInject FactsHandshake FactsOs.

(** * C102: What clients ask the operating system for, and that no random byte is used twice *)
(** The reply to a challenge is the reply of the model for what the operating
    system answers to the requests listed in the specification; no other
    requests are made. *)
Theorem C102_reply : forall cfg P e level user dom pw target c h ch r b O log,
  made cfg P e level user dom pw target c -> negotiable level dom -> accepts h ch ->
  draws O log level ch r -> answer cfg P c h (OpAuthenticate r) = OutBytes b ->
  o_step cfg P O (run cfg P c h) log Reply
  = (run cfg P c (h ++ [OpAuthenticate r]), rev (requests_of level ch) ++ log, Some (OutBytes b)).
Proof. exact C102_reply_lem. Qed.
Print Assumptions C102_reply.
(** Every reply sent is such a reply. *)
Theorem C102_drawn : forall cfg P e level user dom pw target c h ch O log c' log' b,
  made cfg P e level user dom pw target c -> negotiable level dom -> accepts h ch -> lawful_os O ->
  o_step cfg P O (run cfg P c h) log Reply = (c', log', Some (OutBytes b)) ->
  exists r, is_entropy r /\ draws O log level ch r /\ answer cfg P c h (OpAuthenticate r) = OutBytes b.
Proof. exact C102_drawn_lem. Qed.
Print Assumptions C102_drawn.
(** The other calls ask for nothing; a reply without challenge asks for 8 bytes, then panics. *)
Theorem C102_other_calls : forall cfg P O c log ch,
  o_step cfg P O c log Negociate = (fst (step cfg P c OpNegociate), log, Some (snd (step cfg P c OpNegociate)))
  /\ o_step cfg P O c log (Receive ch) = (fst (step cfg P c (OpRecvChallenge ch)), log, Some (snd (step cfg P c (OpRecvChallenge ch)))).
Proof. exact C102_other_calls_lem. Qed.
Print Assumptions C102_other_calls.
Theorem C102_no_challenge : forall cfg P e level user dom pw target c h O log,
  made cfg P e level user dom pw target c -> (forall ch, ~ accepts h ch) -> os_random O log 8 <> None ->
  o_step cfg P O (run cfg P c h) log Reply = (run cfg P c h, AskRandom 8 :: log, Some (OutPanic PUnreachable)).
Proof. exact C102_no_challenge_lem. Qed.
Print Assumptions C102_no_challenge.
(** Without random bytes the call panics and the client is as before. *)
Theorem C102_failure : forall cfg P O c log k c' log', o_step cfg P O c log k = (c', log', None) ->
  k = Reply /\ c' = c
  /\ (os_random O log 8 = None /\ log' = AskRandom 8 :: log
      \/ exists l, os_random O l 16 = None /\ log' = AskRandom 16 :: l).
Proof. exact C102_failure_lem. Qed.
Print Assumptions C102_failure.
(** Clients of one process do not influence one another: each is in the state,
    and has returned the bytes, of a client alone with some random numbers. *)
Theorem C102_alone : forall cfg P O w s i c, lawful_os O -> nth_error (w_clients w) i = Some c ->
  exists h, Forall2 fills (map fst (calls_of i (w_events cfg P O w s))) h
    /\ nth_error (w_clients (w_run cfg P O w s)) i = Some (run cfg P c h)
    /\ map snd (calls_of i (w_events cfg P O w s)) = answers cfg P c h.
Proof. exact C102_alone_lem. Qed.
Print Assumptions C102_alone.
(** If random bytes can always be had, none of the calls is left out. *)
Theorem C102_all_calls : forall cfg P O w s i c, (forall log n, os_random O log n <> None) ->
  nth_error (w_clients w) i = Some c ->
  map fst (calls_of i (w_events cfg P O w s)) = map snd (filter (fun x => Nat.eqb i (fst x)) s).
Proof. exact C102_all_calls_lem. Qed.
Print Assumptions C102_all_calls.
(** One source of random bytes serves all clients.  Of two replies, of
    whichever clients and with whatever calls between, the second uses bytes
    that come after all bytes the first used. *)
Theorem C102_no_byte_twice : forall cfg P src clk cs log s s' w w' w'' i j c d b b'
    e level user dom pw target e' level' user' dom' pw' target',
  (forall p, src p < 256) -> nth_error cs i = Some c -> nth_error cs j = Some d ->
  made cfg P e level user dom pw target c -> made cfg P e' level' user' dom' pw' target' d ->
  Forall (fun x => typed_call (snd x)) s -> Forall (fun x => typed_call (snd x)) s' ->
  let O := source_os src clk in
  w = w_run cfg P O (mkWorld cs log) s -> w_step cfg P O w i Reply = (w', Some (Some (OutBytes b))) ->
  w_step cfg P O (w_run cfg P O w' s') j Reply = (w'', Some (Some (OutBytes b'))) ->
  exists p q, shows_challenge level b (from_source src p 8) /\ shows_challenge level' b' (from_source src q 8)
    /\ (p + 8 <= q)%nat
    /\ forall l, w_log w' = AskRandom 16 :: l -> (p + 24 <= q)%nat
         /\ (key_of w i = None -> key_of w' i = Some (from_source src (p + 8) 16)).
Proof. exact C102_no_byte_twice_lem. Qed.
Print Assumptions C102_no_byte_twice.
(** Two clients that share a source of random bytes: the reply of the second
    without challenge takes bytes 0 to 7, that of the first 8 to 31, the next
    32 to 55; then a reply for which there are no bytes. *)
Example C102_ex :
  let O := source_os counting noon in
  let w := w_run cfg_debug real_prims O two_clients two_handshakes in
  let w' := fst (w_step cfg_debug real_prims O w 0 Reply) in
  made cfg_debug real_prims host_env 3 str_User str_Domain str_Password str_target (sample_client 3)
  /\ made cfg_debug real_prims host_env 1 str_User str_Domain str_Password str_target (sample_client 1)
  /\ Forall (fun x => typed_call (snd x)) two_handshakes
  /\ (forall p, counting p < 256)
  /\ (exists b, w_step cfg_debug real_prims O w 0 Reply = (w', Some (Some (OutBytes b)))
        /\ sub (field_data b 12) 16 8 = [8; 9; 10; 11; 12; 13; 14; 15]
        /\ w_log w' = [AskRandom 16; AskClock; AskRandom 8; AskRandom 8]
        /\ key_of w 0 = None /\ key_of w' 0 = Some [16; 17; 18; 19; 20; 21; 22; 23; 24; 25; 26; 27; 28; 29; 30; 31])
  /\ (exists b w'', w_step cfg_debug real_prims O w' 1 Reply = (w'', Some (Some (OutBytes b)))
        /\ sub (field_data b 12) 0 8 = [32; 33; 34; 35; 36; 37; 38; 39])
  /\ map snd (w_events cfg_debug real_prims (exhausted 2) two_clients (two_handshakes ++ [(0, Reply); (1, Reply)]%nat))
     = [snd (w_step cfg_debug real_prims (exhausted 2) two_clients 0 Negociate); Some (Some (OutPanic PUnreachable));
        snd (w_step cfg_debug real_prims (exhausted 2) two_clients 1 Negociate); Some (Some OutUnit); Some (Some OutUnit);
        Some None; Some None].
Proof. exact C102_ex_lem. Qed.
