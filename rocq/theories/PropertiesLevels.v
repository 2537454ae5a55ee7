(** Property theorems proved in [FactsLevels.v]; generated by tools/gen.py. *)
From Verif Require Import Base Nom Unicode Wire Structures Prims Messages Crypto Client Levels Spec SpecCrypto SpecClient SpecBuild SpecHandshake SpecLevels Lib Encode Decode RoundTrip Parse Samples FactsEncode FactsDecode FactsBuild DesKey RealPrims FactsCrypto SamplesClient SamplesLevels History Reply FactsClient FactsReply FactsTrace FactsHandshake FactsVersioned FactsLevels.

(** * C101: A version function that changes its mind *)
(** A version function that always gives the same answer: the model of
    Client.v, after every history. *)
Theorem C101_constant : forall cfg P c h o,
  v_answer cfg P (fun _ => cl_level c) c h o = answer cfg P c h o.
Proof. exact C101_constant_lem. Qed.
Print Assumptions C101_constant.
(** The NEGOTIATE message is that of a client of the level answered during the call. *)
Theorem C101_negotiate : forall cfg P V c h,
  v_answer cfg P V c h OpNegociate = answer cfg P (at_level c (V (asked cfg P V c h))) [] OpNegociate.
Proof. exact C101_negotiate_lem. Qed.
Print Assumptions C101_negotiate.
(** Each negotiate call asks once, a challenge never; [send_authenticate] asks
    once, and once more exactly if the answer is 0, 1 or 2 and a challenge was
    accepted. *)
Theorem C101_asks : forall cfg P e level user dom pw target c V h r ch,
  made cfg P e level user dom pw target c -> (forall k, V k <= 5) -> len (utf8 dom) <= 65535 ->
  let k := asked cfg P V c h in
  asked cfg P V c (h ++ [OpNegociate]) = S k
  /\ asked cfg P V c (h ++ [OpRecvChallenge ch]) = k
  /\ (3 <= V k -> asked cfg P V c (h ++ [OpAuthenticate r]) = S k)
  /\ (V k <= 2 -> (exists ch', accepts h ch') -> asked cfg P V c (h ++ [OpAuthenticate r]) = S (S k))
  /\ (V k <= 2 -> (forall ch', ~ accepts h ch') -> asked cfg P V c (h ++ [OpAuthenticate r]) = S k).
Proof. exact C101_asks_lem. Qed.
Print Assumptions C101_asks.
(** The reply is that of a client of one level, [acts] of the two answers --
    whatever was answered during the negotiate call -- but for the MIC. *)
Theorem C101_reply : forall cfg P e level user dom pw target c V h ch r,
  made cfg P e level user dom pw target c -> (forall k, V k <= 5) -> len (utf8 dom) <= 65535 ->
  valid_challenge ch -> is_entropy r -> accepts h ch ->
  let l := acts (V (asked cfg P V c h)) (V (S (asked cfg P V c h))) in
  (forall b, replies cfg P e l user dom pw ch r b ->
    exists b', v_answer cfg P V c h (OpAuthenticate r) = OutBytes b'
      /\ sub b' 0 64 = sub b 0 64 /\ skipn 80 b' = skipn 80 b /\ (l <= 2 -> b' = b))
  /\ ((forall b, ~ replies cfg P e l user dom pw ch r b) ->
      exists w, v_answer cfg P V c h (OpAuthenticate r) = OutPanic w).
Proof. exact C101_reply_lem. Qed.
Print Assumptions C101_reply.
(** From level 3 on, the MIC covers the NEGOTIATE message that was sent, at the
    level answered then; the session key is the one of the client of one level.
    If the level answered then was 2 or more, so is the whole reply. *)
Theorem C101_mic : forall cfg P e level user dom pw target c V h1 h2 ch r c0 target0 h0 b K nb nb0 b',
  made cfg P e level user dom pw target c -> (forall k, V k <= 5) -> len (utf8 dom) <= 65535 ->
  let h := h1 ++ OpNegociate :: h2 in
  let l := acts (V (asked cfg P V c h)) (V (S (asked cfg P V c h))) in
  untouched h2 -> accepts h ch -> 3 <= l ->
  made cfg P e l user dom pw target0 c0 -> concludes cfg P c0 h0 ch r b K ->
  v_answer cfg P V c h1 OpNegociate = OutBytes nb -> answer cfg P c0 [] OpNegociate = OutBytes nb0 ->
  v_answer cfg P V c h (OpAuthenticate r) = OutBytes b' ->
  (exists d, sub b 64 16 = p_hmac_md5 P K (nb0 ++ challenge_bytes cfg ch ++ d)
     /\ sub b' 64 16 = p_hmac_md5 P K (nb ++ challenge_bytes cfg ch ++ d)
     /\ u32_at d 60 = 1073741825 /\ sub d 64 16 = zeros 16)
  /\ (session_key (v_client cfg P V c h) = None ->
      session_key (v_client cfg P V c (h ++ [OpAuthenticate r])) = Some K)
  /\ (2 <= V (asked cfg P V c h1) -> b' = b).
Proof. exact C101_mic_lem. Qed.
Print Assumptions C101_mic.
(** An answer above 5 makes both sends panic, and leaves the client as it was. *)
Theorem C101_panics : forall cfg P V c h o,
  5 < V (asked cfg P V c h) -> (o = OpNegociate \/ exists r, o = OpAuthenticate r) ->
  (exists w, v_answer cfg P V c h o = OutPanic w)
  /\ v_client cfg P V c (h ++ [o]) = v_client cfg P V c h
  /\ asked cfg P V c (h ++ [o]) = S (asked cfg P V c h).
Proof. exact C101_panics_lem. Qed.
Print Assumptions C101_panics.
Example C101_ex :
  made cfg_debug real_prims host_env 3 str_User str_Domain str_Password str_target (sample_client 3)
  /\ (forall k, turning 6 0 3 k <= 5) /\ len (utf8 str_Domain) <= 65535
  /\ valid_challenge sealed_challenge /\ is_entropy sample_entropy
  /\ accepts (sample_history sealed_challenge) sealed_challenge
  /\ asked cfg_debug real_prims (turning 4 0 3) (sample_client 3) (sample_history sealed_challenge) = 4%nat
  /\ acts 3 3 = 3
  /\ concludes cfg_debug real_prims (sample_client 3) (sample_history sealed_challenge) sealed_challenge sample_entropy
       (sample_reply 3 sealed_challenge) (repeat 85 16)
  /\ (exists b' nb nb0,
        v_answer cfg_debug real_prims (turning 4 0 3) (sample_client 3) (sample_history sealed_challenge) (OpAuthenticate sample_entropy) = OutBytes b'
        /\ b' <> sample_reply 3 sealed_challenge
        /\ v_answer cfg_debug real_prims (turning 4 0 3) (sample_client 3) [OpAuthenticate sample_entropy; OpRecvChallenge old_challenge; OpNegociate; OpRecvChallenge versioned_challenge] OpNegociate = OutBytes nb
        /\ answer cfg_debug real_prims (sample_client 3) [] OpNegociate = OutBytes nb0 /\ nb <> nb0
        /\ session_key (v_client cfg_debug real_prims (turning 4 0 3) (sample_client 3) (sample_history sealed_challenge)) = None)
  /\ (exists w, v_answer cfg_debug real_prims (turning 4 0 6) (sample_client 3) (sample_history sealed_challenge) (OpAuthenticate sample_entropy) = OutPanic w).
Proof. exact C101_ex_lem. Qed.
(** Not every reply is one of a client of one level. *)
Theorem C101_one_level_refuted :
  ~ (forall cfg P e level user dom pw target c V h ch r b,
      made cfg P e level user dom pw target c -> (forall k, V k <= 5) -> valid_challenge ch -> is_entropy r -> accepts h ch ->
      v_answer cfg P V c h (OpAuthenticate r) = OutBytes b ->
      exists l, replies cfg P e l user dom pw ch r b).
Proof. exact C101_one_level_refuted_lem. Qed.
Print Assumptions C101_one_level_refuted.
