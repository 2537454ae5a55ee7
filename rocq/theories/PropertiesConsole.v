(** Property theorems proved in [FactsConsole.v]; generated by tools/gen.py. *)
From Coq Require Import ZifyBool ZifyNat ZifyN Ascii String.
From Verif Require Import Base Nom Unicode Wire Structures Prims Messages Crypto Client Debug Log Spec SpecClient SpecLog
  Lib Encode Decode RoundTrip Parse RealPrims Samples FactsEncode FactsDecode FactsBuild DesKey FactsCrypto SamplesClient History FactsClient FactsConsole.

(** * C78: What a client prints *)
(** One call, at any point of any history. *)
Theorem C78_one_call : forall cfg P e level user dom pw target c h o,
  made cfg P e level user dom pw target c ->
  let c' := run cfg P c h in
  snd (v_step cfg P c' o) = step cfg P c' o
  /\ printed (fst (v_step cfg P c' o)) = printed_by o (snd (step cfg P c' o))
  /\ warned (fst (v_step cfg P c' o)) = [].
Proof. exact C78_one_call_lem. Qed.
Print Assumptions C78_one_call.
(** A whole history: two lines for each NEGOTIATE sent, and nothing else. *)
Theorem C78_history : forall cfg P e level user dom pw target c h,
  made cfg P e level user dom pw target c ->
  printed_along cfg P c h =
    flat_map (fun b => [text "self.buffer.len() = " ++ decimal (len b); text "size = " ++ decimal (len b)])
      (negotiates_sent cfg P c h)
  /\ warned_along cfg P c h = [].
Proof. exact C78_history_lem. Qed.
Print Assumptions C78_history.
(** [compute_mic] warns exactly if there is no exported key, and then changes nothing. *)
Theorem C78_compute_mic : forall cfg P a n ch,
  snd (v_compute_mic cfg P a n ch) = compute_mic cfg P a n ch
  /\ printed (fst (v_compute_mic cfg P a n ch)) = []
  /\ (a_exported_key a <> None -> warned (fst (v_compute_mic cfg P a n ch)) = [])
  /\ (a_exported_key a = None ->
      warned (fst (v_compute_mic cfg P a n ch)) = [text "Cannot compute MIC as there is no `exported_session_key`."]
      /\ snd (v_compute_mic cfg P a n ch) = Val a).
Proof. exact C78_compute_mic_lem. Qed.
Print Assumptions C78_compute_mic.
Example C78_ex : made cfg_debug real_prims host_env 3 str_User str_Domain str_Password str_target (sample_client 3)
  /\ printed_along cfg_debug real_prims (sample_client 3) [OpNegociate; OpRecvChallenge sample_challenge; OpNegociate] =
     [text "self.buffer.len() = 38"; text "size = 38"; text "self.buffer.len() = 38"; text "size = 38"]%string.
Proof. exact C78_ex_lem. Qed.
