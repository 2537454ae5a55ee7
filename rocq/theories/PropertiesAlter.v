(** Property theorems proved in [FactsAlter.v]; generated by tools/gen.py. *)
From Verif Require Import Base Nom Unicode Wire Structures Prims Messages Crypto Client Spec SpecBuild SpecCrypto SpecClient SpecServer SpecLmv2 Lib Encode Decode RoundTrip Parse Samples FactsEncode FactsDecode FactsBuild DesKey RealPrims FactsCrypto SamplesClient History Reply FactsClient SpecTrace Trace FactsTrace SamplesLabour SamplesLmv2 SamplesTiming FactsServer FactsLmv2 FactsTiming SamplesPlaces FactsPlaces SpecQueries SamplesQueries FactsQueries SpecForgery SamplesForgery FactsForgery SpecBlocks SamplesBlocks FactsBlocks SpecSecrecy SamplesSecrecy FactsReply FactsSecrecy SpecUses SamplesUses FactsUses SpecPry SamplesPry FactsPry SpecAlter SamplesAlter FactsAlter.

(** * C129: Nobody alters a handshake unnoticed *)
(** In the game of C127, who has not hashed NTProofStr under the NTLMv2 key of the account, nor
    used RC4 under the session base key, knows the MIC of one text at most, the one that is
    under the MIC of the reply: for all session keys but those C127 leaves out, and all values [F] that HMAC-MD5 may
    have under the key, in some world all happened to them the same, the client has this
    session key, and every other text has the MIC [F] gives it. *)
Theorem C129_free : forall cfg P ps sk s ch t b K nb, host_le cfg = true -> 3 <= pe_level (ps 0%nat) ->
  (forall i, person_made cfg P (ps i)) ->
  let k2 := key_of P (ps 0%nat) in
  let d := pry cfg P (fun i => pe_client (ps i)) sk s [] [] [] in
  let proof := proof_of cfg P k2 ch (f_draws d) t in
  let base := base_key_of cfg P k2 ch (f_draws d) t in
  Forall typed_call (map snd (other_calls d)) ->
  concludes cfg P (pe_client (ps 0%nat)) (calls_to 0 (f_calls d)) ch (f_draws d) b K -> response_time ch (f_draws d) = Some t ->
  answer cfg P (pe_client (ps 0%nat)) (calls_to 0 (f_calls d)) OpNegociate = OutBytes nb ->
  NTOWFv1 P (pe_password (ps 0%nat)) <> k2 ->
  unrepeated cfg P k2 (calls_to 0 (other_calls d)) ch (f_draws d) t ->
  (forall i, others d i -> ~ person_asks cfg P (ps i) (calls_to i (other_calls d)) k2 proof) ->
  (forall i n, others d i -> ~ person_enciphers cfg P (ps i) (calls_to i (other_calls d)) base n) ->
  ~ In (k2, proof) (f_macs d) -> (forall n, ~ In (base, n) (f_streams d)) ->
  exists x excluded, sub b 64 16 = p_hmac_md5 P K (nb ++ challenge_bytes cfg ch ++ x) /\ x <> zero_mic b
  /\ (forall o, In o [12; 20; 28; 36; 52] -> field_data x o = field_data b o)
  /\ (length excluded <= 4 * length (other_calls d) + length (f_macs d) + 2)%nat
  /\ forall K' F, is_buffer 16 K' -> ~ In K' excluded -> (forall m, is_buffer 16 (F m)) ->
  exists P' sk', person_made cfg P' (ps 0%nat) /\ (forall i, others d i -> person_made cfg P' (ps i)) /\ key_of P' (ps 0%nat) = k2
    /\ let d' := pry cfg P' (fun i => pe_client (ps i)) sk' s [] [] [] in
       same_finding d d' /\ same_talk cfg P P' ps d d'
       /\ concludes cfg P' (pe_client (ps 0%nat)) (calls_to 0 (f_calls d)) ch (f_draws d') b K'
       /\ forall m, m <> nb ++ challenge_bytes cfg ch ++ x -> p_hmac_md5 P' K' m = F m.
Proof. exact C129_free_lem. Qed.
Print Assumptions C129_free.
(** So whatever MIC they say of a text that does not begin with the NEGOTIATE the client sent
    and the challenge it took, in some world the server refuses it. *)
Theorem C129_nobody : forall cfg P ps sk s ch t b K nb, host_le cfg = true -> 3 <= pe_level (ps 0%nat) ->
  (forall i, person_made cfg P (ps i)) ->
  let k2 := key_of P (ps 0%nat) in
  let d := pry cfg P (fun i => pe_client (ps i)) sk s [] [] [] in
  let proof := proof_of cfg P k2 ch (f_draws d) t in
  let base := base_key_of cfg P k2 ch (f_draws d) t in
  Forall typed_call (map snd (other_calls d)) ->
  concludes cfg P (pe_client (ps 0%nat)) (calls_to 0 (f_calls d)) ch (f_draws d) b K -> response_time ch (f_draws d) = Some t ->
  answer cfg P (pe_client (ps 0%nat)) (calls_to 0 (f_calls d)) OpNegociate = OutBytes nb ->
  NTOWFv1 P (pe_password (ps 0%nat)) <> k2 ->
  unrepeated cfg P k2 (calls_to 0 (other_calls d)) ch (f_draws d) t ->
  (forall i, others d i -> ~ person_asks cfg P (ps i) (calls_to i (other_calls d)) k2 proof) ->
  (forall i n, others d i -> ~ person_enciphers cfg P (ps i) (calls_to i (other_calls d)) base n) ->
  ~ In (k2, proof) (f_macs d) -> (forall n, ~ In (base, n) (f_streams d)) ->
  N.of_nat (4 * length (other_calls d) + length (f_macs d)) < 2 ^ 128 - 3 ->
  (forall x, said_text (f_claim d) <> nb ++ challenge_bytes cfg ch ++ x) ->
  exists P' sk' K', person_made cfg P' (ps 0%nat) /\ (forall i, others d i -> person_made cfg P' (ps i)) /\ key_of P' (ps 0%nat) = k2
    /\ let d' := pry cfg P' (fun i => pe_client (ps i)) sk' s [] [] [] in
       same_finding d d' /\ same_talk cfg P P' ps d d'
       /\ concludes cfg P' (pe_client (ps 0%nat)) (calls_to 0 (f_calls d)) ch (f_draws d') b K' /\ ~ mic_taken P' K' (f_claim d').
Proof. exact C129_nobody_lem. Qed.
Print Assumptions C129_nobody.
(** But a server that checks the MIC as MS-NLMP says refuses, in such a world, the reply of the
    client itself: the text under its MIC is not the message that was sent (C29). *)
Theorem C129_genuine : forall cfg P ps sk s ch t b K nb, host_le cfg = true -> 3 <= pe_level (ps 0%nat) ->
  (forall i, person_made cfg P (ps i)) ->
  let k2 := key_of P (ps 0%nat) in
  let d := pry cfg P (fun i => pe_client (ps i)) sk s [] [] [] in
  let proof := proof_of cfg P k2 ch (f_draws d) t in
  let base := base_key_of cfg P k2 ch (f_draws d) t in
  Forall typed_call (map snd (other_calls d)) ->
  concludes cfg P (pe_client (ps 0%nat)) (calls_to 0 (f_calls d)) ch (f_draws d) b K -> response_time ch (f_draws d) = Some t ->
  answer cfg P (pe_client (ps 0%nat)) (calls_to 0 (f_calls d)) OpNegociate = OutBytes nb ->
  NTOWFv1 P (pe_password (ps 0%nat)) <> k2 ->
  unrepeated cfg P k2 (calls_to 0 (other_calls d)) ch (f_draws d) t ->
  (forall i, others d i -> ~ person_asks cfg P (ps i) (calls_to i (other_calls d)) k2 proof) ->
  (forall i n, others d i -> ~ person_enciphers cfg P (ps i) (calls_to i (other_calls d)) base n) ->
  ~ In (k2, proof) (f_macs d) -> (forall n, ~ In (base, n) (f_streams d)) ->
  N.of_nat (4 * length (other_calls d) + length (f_macs d)) < 2 ^ 128 - 3 ->
  exists P' sk' K', person_made cfg P' (ps 0%nat) /\ (forall i, others d i -> person_made cfg P' (ps i)) /\ key_of P' (ps 0%nat) = k2
    /\ let d' := pry cfg P' (fun i => pe_client (ps i)) sk' s [] [] [] in
       same_finding d d' /\ same_talk cfg P P' ps d d'
       /\ concludes cfg P' (pe_client (ps 0%nat)) (calls_to 0 (f_calls d)) ch (f_draws d') b K'
       /\ p_hmac_md5 P' K' (nb ++ challenge_bytes cfg ch ++ zero_mic b) <> sub b 64 16.
Proof. exact C129_genuine_lem. Qed.
Print Assumptions C129_genuine.
(** Somebody who says that the client did not ask for protection. *)
Example C129_ex :
  let P := mixing_prims in
  let ps := pair_of_clients in
  let d := pry cfg_debug P (fun i => pe_client (ps i)) (e_session_key sample_entropy) meddling [] [] [] in
  let k2 := key_of P (ps 0%nat) in
  (forall i, person_made cfg_debug P (ps i))
  /\ NTOWFv1 P (pe_password (ps 0%nat)) <> k2
  /\ Forall typed_call (map snd (other_calls d))
  /\ concludes cfg_debug P (pe_client (ps 0%nat)) (calls_to 0 (f_calls d)) sealed_challenge (f_draws d) (mixed_reply no_reply) (mixed_key no_reply)
  /\ answer cfg_debug P (pe_client (ps 0%nat)) (calls_to 0 (f_calls d)) OpNegociate = OutBytes mixed_offer
  /\ (exists t, response_time sealed_challenge (f_draws d) = Some t
       /\ let proof := proof_of cfg_debug P k2 sealed_challenge (f_draws d) t in
          let base := base_key_of cfg_debug P k2 sealed_challenge (f_draws d) t in
          unrepeated cfg_debug P k2 (calls_to 0 (other_calls d)) sealed_challenge (f_draws d) t
          /\ (forall i, others d i -> ~ person_asks cfg_debug P (ps i) (calls_to i (other_calls d)) k2 proof)
          /\ (forall i n, others d i -> ~ person_enciphers cfg_debug P (ps i) (calls_to i (other_calls d)) base n)
          /\ ~ In (k2, proof) (f_macs d) /\ forall n, ~ In (base, n) (f_streams d))
  /\ said_text (f_claim d) = unprotected mixed_offer ++ challenge_bytes cfg_debug sealed_challenge ++ zero_mic (mixed_reply no_reply)
  /\ (forall x, said_text (f_claim d) <> mixed_offer ++ challenge_bytes cfg_debug sealed_challenge ++ x)
  /\ u32_at mixed_offer 12 = N.lor (u32_at (unprotected mixed_offer) 12) 32816.
Proof. exact C129_ex_lem. Qed.
