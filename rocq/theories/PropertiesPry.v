(** Property theorems proved in [FactsPry.v]; generated by tools/gen.py. *)
From Verif Require Import Base Nom Unicode Wire Structures Prims Messages Crypto Client Spec SpecBuild SpecCrypto SpecClient SpecServer SpecLmv2 Lib Encode Decode RoundTrip Parse Samples FactsEncode FactsDecode FactsBuild DesKey RealPrims FactsCrypto SamplesClient History Reply FactsClient SpecTrace Trace FactsTrace SamplesLabour SamplesLmv2 SamplesTiming FactsServer FactsLmv2 FactsTiming SamplesPlaces FactsPlaces SpecQueries SamplesQueries FactsQueries SpecForgery SamplesForgery FactsForgery SpecBlocks SamplesBlocks FactsBlocks SpecSecrecy SamplesSecrecy FactsReply FactsSecrecy SpecUses SamplesUses FactsUses SpecPry SamplesPry FactsPry.

(** * C127: Nobody learns the session key *)
(** Who has not hashed NTProofStr under the NTLMv2 key of the account, nor used RC4 under the
    session base key, knows next to nothing about the session key of a client of levels 3 to 5,
    though they call all the other clients there are, of this account or of others, if these
    did not do that either: of all 16 bytes each may be the key, but for at most two more than
    four times the calls and the hashes they made.  In some world all happened to them the
    same and these 16 bytes are the key. *)
Theorem C127_open : forall cfg P ps sk s ch t b K, host_le cfg = true -> 3 <= pe_level (ps 0%nat) ->
  (forall i, person_made cfg P (ps i)) ->
  let k2 := key_of P (ps 0%nat) in
  let d := pry cfg P (fun i => pe_client (ps i)) sk s [] [] [] in
  let proof := proof_of cfg P k2 ch (f_draws d) t in
  let base := base_key_of cfg P k2 ch (f_draws d) t in
  Forall typed_call (map snd (other_calls d)) ->
  concludes cfg P (pe_client (ps 0%nat)) (calls_to 0 (f_calls d)) ch (f_draws d) b K -> response_time ch (f_draws d) = Some t ->
  NTOWFv1 P (pe_password (ps 0%nat)) <> k2 ->
  unrepeated cfg P k2 (calls_to 0 (other_calls d)) ch (f_draws d) t ->
  (forall i, others d i -> ~ person_asks cfg P (ps i) (calls_to i (other_calls d)) k2 proof) ->
  (forall i n, others d i -> ~ person_enciphers cfg P (ps i) (calls_to i (other_calls d)) base n) ->
  ~ In (k2, proof) (f_macs d) -> (forall n, ~ In (base, n) (f_streams d)) ->
  exists excluded, (length excluded <= 4 * length (other_calls d) + length (f_macs d) + 2)%nat
  /\ forall K', is_buffer 16 K' -> ~ In K' excluded ->
  exists P' sk', person_made cfg P' (ps 0%nat) /\ (forall i, others d i -> person_made cfg P' (ps i)) /\ key_of P' (ps 0%nat) = k2
    /\ let d' := pry cfg P' (fun i => pe_client (ps i)) sk' s [] [] [] in
       same_finding d d' /\ same_talk cfg P P' ps d d'
       /\ concludes cfg P' (pe_client (ps 0%nat)) (calls_to 0 (f_calls d)) ch (f_draws d') b K'.
Proof. exact C127_open_lem. Qed.
Print Assumptions C127_open.
(** So they do not know it: in some world it is not what they say. *)
Theorem C127_nobody : forall cfg P ps sk s ch t b K, host_le cfg = true -> 3 <= pe_level (ps 0%nat) ->
  (forall i, person_made cfg P (ps i)) ->
  let k2 := key_of P (ps 0%nat) in
  let d := pry cfg P (fun i => pe_client (ps i)) sk s [] [] [] in
  let proof := proof_of cfg P k2 ch (f_draws d) t in
  let base := base_key_of cfg P k2 ch (f_draws d) t in
  Forall typed_call (map snd (other_calls d)) ->
  concludes cfg P (pe_client (ps 0%nat)) (calls_to 0 (f_calls d)) ch (f_draws d) b K -> response_time ch (f_draws d) = Some t ->
  NTOWFv1 P (pe_password (ps 0%nat)) <> k2 ->
  unrepeated cfg P k2 (calls_to 0 (other_calls d)) ch (f_draws d) t ->
  (forall i, others d i -> ~ person_asks cfg P (ps i) (calls_to i (other_calls d)) k2 proof) ->
  (forall i n, others d i -> ~ person_enciphers cfg P (ps i) (calls_to i (other_calls d)) base n) ->
  ~ In (k2, proof) (f_macs d) -> (forall n, ~ In (base, n) (f_streams d)) ->
  N.of_nat (4 * length (other_calls d) + length (f_macs d)) < 2 ^ 128 - 3 ->
  exists P' sk' K', person_made cfg P' (ps 0%nat) /\ (forall i, others d i -> person_made cfg P' (ps i)) /\ key_of P' (ps 0%nat) = k2
    /\ let d' := pry cfg P' (fun i => pe_client (ps i)) sk' s [] [] [] in
       same_finding d d' /\ same_talk cfg P P' ps d d'
       /\ concludes cfg P' (pe_client (ps 0%nat)) (calls_to 0 (f_calls d)) ch (f_draws d') b K' /\ K' <> f_claim d'.
Proof. exact C127_nobody_lem. Qed.
Print Assumptions C127_nobody.
(** The same for levels 0 to 2, for who has not hashed what gave the key under which a session
    key is sent, and not used RC4 under it: every 16 bytes may be the key. *)
Theorem C127_nobody_old : forall cfg P ps sk s ch b K lm, host_le cfg = true -> pe_level (ps 0%nat) <= 2 ->
  (forall i, person_made cfg P (ps i)) -> lmowfv1 P (pe_password (ps 0%nat)) = Val lm ->
  let nt := NTOWFv1 P (pe_password (ps 0%nat)) in
  let d := pry cfg P (fun i => pe_client (ps i)) sk s [] [] [] in
  let key ch r := old_base_key P (pe_level (ps 0%nat)) nt lm ch r in
  let msg := old_key_message P (pe_level (ps 0%nat)) nt lm ch (f_draws d) in
  Forall typed_call (map snd (other_calls d)) ->
  concludes cfg P (pe_client (ps 0%nat)) (calls_to 0 (f_calls d)) ch (f_draws d) b K ->
  p_md4 P nt <> nt ->
  (forall ch' r', answered (calls_to 0 (other_calls d)) ch' r' -> key ch' r' <> key ch (f_draws d)) ->
  (forall i, others d i -> ~ person_asks cfg P (ps i) (calls_to i (other_calls d)) (p_md4 P nt) msg) ->
  (forall i n, others d i -> ~ person_enciphers cfg P (ps i) (calls_to i (other_calls d)) (key ch (f_draws d)) n) ->
  ~ In (p_md4 P nt, msg) (f_macs d) -> (forall n, ~ In (key ch (f_draws d), n) (f_streams d)) ->
  forall K', is_buffer 16 K' ->
  exists P' sk', person_made cfg P' (ps 0%nat) /\ (forall i, others d i -> person_made cfg P' (ps i))
    /\ let d' := pry cfg P' (fun i => pe_client (ps i)) sk' s [] [] [] in
       same_finding d d' /\ same_talk cfg P P' ps d d'
       /\ concludes cfg P' (pe_client (ps 0%nat)) (calls_to 0 (f_calls d)) ch (f_draws d') b K'.
Proof. exact C127_nobody_old_lem. Qed.
Print Assumptions C127_nobody_old.
(** Who has the NTLMv2 key of the account works the session key out from the reply. *)
Theorem C127_work_out : forall cfg P e level user dom pw target cs h ch r b K calls after macs streams, host_le cfg = true -> 3 <= level ->
  made cfg P e level user dom pw target (cs 0%nat) -> concludes cfg P (cs 0%nat) h ch r b K ->
  f_claim (think cfg P cs (work_out (NTOWFv2 P pw user dom) (ch_server_challenge ch) (key_exchange (ch_flags ch)) (OutBytes b)) calls r after macs streams) = K.
Proof. exact C127_work_out_lem. Qed.
Print Assumptions C127_work_out.
(** Somebody curious, and the two clients they serve. *)
Example C127_ex :
  let P := mixing_prims in
  let ps := pair_of_clients in
  let d := pry cfg_debug P (fun i => pe_client (ps i)) (e_session_key sample_entropy) curious [] [] [] in
  let k2 := key_of P (ps 0%nat) in
  (forall i, person_made cfg_debug P (ps i))
  /\ NTOWFv1 P (pe_password (ps 0%nat)) <> k2
  /\ calls_to 0 (f_calls d) = no_reply /\ f_draws d = sample_entropy /\ calls_to 0 (f_after d) = second
  /\ calls_to 1 (other_calls d) = told_second /\ (forall i, others d i -> i = 1%nat)
  /\ Forall typed_call (map snd (other_calls d))
  /\ concludes cfg_debug P (pe_client (ps 0%nat)) (calls_to 0 (f_calls d)) sealed_challenge (f_draws d) (mixed_reply no_reply) (mixed_key no_reply)
  /\ (exists t, response_time sealed_challenge (f_draws d) = Some t
       /\ let proof := proof_of cfg_debug P k2 sealed_challenge (f_draws d) t in
          let base := base_key_of cfg_debug P k2 sealed_challenge (f_draws d) t in
          unrepeated cfg_debug P k2 (calls_to 0 (other_calls d)) sealed_challenge (f_draws d) t
          /\ (forall i, others d i -> ~ person_asks cfg_debug P (ps i) (calls_to i (other_calls d)) k2 proof)
          /\ (forall i n, others d i -> ~ person_enciphers cfg_debug P (ps i) (calls_to i (other_calls d)) base n)
          /\ ~ In (k2, proof) (f_macs d) /\ forall n, ~ In (base, n) (f_streams d))
  /\ length (f_macs d) = 2%nat /\ length (f_streams d) = 1%nat /\ length (f_claim d) = 16%nat.
Proof. exact C127_ex_lem. Qed.
(** The same at levels 1 and 2. *)
Example C127_ex_old :
  let P := moving_prims in
  let ps := pair_of_old_clients in
  let d := pry cfg_debug P (fun i => pe_client (ps i)) (e_session_key sample_entropy) curious [] [] [] in
  let nt := NTOWFv1 P (pe_password (ps 0%nat)) in
  (forall i, person_made cfg_debug P (ps i))
  /\ p_md4 P nt <> nt
  /\ calls_to 0 (f_calls d) = no_reply /\ f_draws d = sample_entropy /\ calls_to 0 (f_after d) = second
  /\ calls_to 1 (other_calls d) = told_second /\ (forall i, others d i -> i = 1%nat)
  /\ Forall typed_call (map snd (other_calls d))
  /\ concludes cfg_debug P (pe_client (ps 0%nat)) (calls_to 0 (f_calls d)) sealed_challenge (f_draws d) (moved_reply no_reply) (moved_key no_reply)
  /\ (exists lm, lmowfv1 P (pe_password (ps 0%nat)) = Val lm
       /\ let key ch r := old_base_key P (pe_level (ps 0%nat)) nt lm ch r in
          let msg := old_key_message P (pe_level (ps 0%nat)) nt lm sealed_challenge (f_draws d) in
          (forall ch' r', answered (calls_to 0 (other_calls d)) ch' r' -> key ch' r' <> key sealed_challenge (f_draws d))
          /\ (forall i, others d i -> ~ person_asks cfg_debug P (ps i) (calls_to i (other_calls d)) (p_md4 P nt) msg)
          /\ (forall i n, others d i -> ~ person_enciphers cfg_debug P (ps i) (calls_to i (other_calls d)) (key sealed_challenge (f_draws d)) n)
          /\ ~ In (p_md4 P nt, msg) (f_macs d) /\ forall n, ~ In (key sealed_challenge (f_draws d), n) (f_streams d))
  /\ length (f_macs d) = 2%nat /\ length (f_streams d) = 1%nat /\ length (f_claim d) = 16%nat.
Proof. exact C127_ex_old_lem. Qed.
