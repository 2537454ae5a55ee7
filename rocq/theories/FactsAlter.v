(** Nobody alters the messages under a MIC without the keys of the account. *)
From Coq Require Import ZifyBool ZifyNat ZifyN.
From Verif Require Import Base Nom Unicode Wire Structures Prims Messages Crypto Client Spec SpecBuild SpecCrypto SpecClient SpecServer SpecLmv2 Lib Encode Decode RoundTrip Parse Samples FactsEncode FactsDecode FactsBuild DesKey RealPrims FactsCrypto SamplesClient History Reply FactsClient SpecTrace Trace FactsTrace SamplesLabour SamplesLmv2 SamplesTiming FactsServer FactsLmv2 FactsTiming SamplesPlaces FactsPlaces SpecQueries SamplesQueries FactsQueries SpecForgery SamplesForgery FactsForgery SpecBlocks SamplesBlocks FactsBlocks SpecSecrecy SamplesSecrecy FactsReply FactsSecrecy SpecUses SamplesUses FactsUses SpecPry SamplesPry FactsPry SpecAlter SamplesAlter.

Ltac Zify.zify_post_hook ::= Z.div_mod_to_equations.

(** In the game of C127, who has not hashed NTProofStr under the NTLMv2 key of the account, nor
    used RC4 under the session base key, knows the MIC of one text at most, the one that is
    under the MIC of the reply: for all session keys but those C127 leaves out, and all values [F] that HMAC-MD5 may
    have under the key, in some world all happened to them the same, the client has this
    session key, and every other text has the MIC [F] gives it. *)
Lemma C129_free_lem : forall cfg P ps sk s ch t b K nb, host_le cfg = true -> 3 <= pe_level (ps 0%nat) ->
  (forall i, person_made cfg P (ps i)) ->
  let k2 := key_of P (ps 0%nat) in
  let d := pry cfg P (fun i => pe_client (ps i)) sk s [] [] [] in
  let proof := proof_of cfg P k2 ch (f_draws d) t in
  let base := base_key_of cfg P k2 ch (f_draws d) t in
  Forall typed_call (map snd (other_calls d)) ->
  concludes cfg P (pe_client (ps 0%nat)) (calls_to 0 (f_calls d)) ch (f_draws d) b K -> response_time ch (f_draws d) = Some t ->
  answer cfg P (pe_client (ps 0%nat)) (calls_to 0 (f_calls d)) OpNegociate = OutBytes nb ->
  NTOWFv1 P (pe_password (ps 0%nat)) <> k2 ->
  unrepeated cfg P k2 (calls_to 0 (other_calls d)) ch (f_draws d) t ->
  (forall i, others d i -> ~ person_asks cfg P (ps i) (calls_to i (other_calls d)) k2 proof) ->
  (forall i n, others d i -> ~ person_enciphers cfg P (ps i) (calls_to i (other_calls d)) base n) ->
  ~ In (k2, proof) (f_macs d) -> (forall n, ~ In (base, n) (f_streams d)) ->
  exists x excluded, sub b 64 16 = p_hmac_md5 P K (nb ++ challenge_bytes cfg ch ++ x) /\ x <> zero_mic b
  /\ (forall o, In o [12; 20; 28; 36; 52] -> field_data x o = field_data b o)
  /\ (length excluded <= 4 * length (other_calls d) + length (f_macs d) + 2)%nat
  /\ forall K' F, is_buffer 16 K' -> ~ In K' excluded -> (forall m, is_buffer 16 (F m)) ->
  exists P' sk', person_made cfg P' (ps 0%nat) /\ (forall i, others d i -> person_made cfg P' (ps i)) /\ key_of P' (ps 0%nat) = k2
    /\ let d' := pry cfg P' (fun i => pe_client (ps i)) sk' s [] [] [] in
       same_finding d d' /\ same_talk cfg P P' ps d d'
       /\ concludes cfg P' (pe_client (ps 0%nat)) (calls_to 0 (f_calls d)) ch (f_draws d') b K'
       /\ forall m, m <> nb ++ challenge_bytes cfg ch ++ x -> p_hmac_md5 P' K' m = F m.
Proof.
  intros cfg P ps sk s ch t b K nb HLE L M k2 d proof base TC C T A NK U OH OR NH NR.
  destruct (mic_text _ _ _ _ _ _ _ _ _ _ _ _ _ _ _ (M 0%nat) L C A) as (t' & T' & NB & X1 & X2 & _ & _ & X3 & _).
  rewrite T in T'. injection T' as <-.
  destruct (open_world _ _ _ _ _ _ _ _ _ HLE L M TC C T NK U OH OR NH NR) as (l & Ll & H).
  eexists _, l. split; [exact X1|]. split; [exact X2|]. split; [exact X3|]. split; [exact Ll|].
  intros K' F HK' NV HF. destruct (H K' F HK' NV HF) as (P' & sk' & M' & M1 & E2 & SF & ST & C' & HM).
  exists P', sk'. split; [exact M'|]. split; [exact M1|]. split; [exact E2|]. cbv zeta. split; [exact SF|]. split; [exact ST|]. split; [exact C'|].
  rewrite NB. exact HM.
Qed.
Lemma other_byte (x : bytes) : exists v, is_buffer 16 v /\ v <> x.
Proof.
  destruct (fresh_key [x]) as (v & B & N). { cbn. lia. } exists v. split; [exact B|]. intros ->. apply N. now left.
Qed.
(** So whatever MIC they say of a text that does not begin with the NEGOTIATE the client sent
    and the challenge it took, in some world the server refuses it. *)
Lemma C129_nobody_lem : forall cfg P ps sk s ch t b K nb, host_le cfg = true -> 3 <= pe_level (ps 0%nat) ->
  (forall i, person_made cfg P (ps i)) ->
  let k2 := key_of P (ps 0%nat) in
  let d := pry cfg P (fun i => pe_client (ps i)) sk s [] [] [] in
  let proof := proof_of cfg P k2 ch (f_draws d) t in
  let base := base_key_of cfg P k2 ch (f_draws d) t in
  Forall typed_call (map snd (other_calls d)) ->
  concludes cfg P (pe_client (ps 0%nat)) (calls_to 0 (f_calls d)) ch (f_draws d) b K -> response_time ch (f_draws d) = Some t ->
  answer cfg P (pe_client (ps 0%nat)) (calls_to 0 (f_calls d)) OpNegociate = OutBytes nb ->
  NTOWFv1 P (pe_password (ps 0%nat)) <> k2 ->
  unrepeated cfg P k2 (calls_to 0 (other_calls d)) ch (f_draws d) t ->
  (forall i, others d i -> ~ person_asks cfg P (ps i) (calls_to i (other_calls d)) k2 proof) ->
  (forall i n, others d i -> ~ person_enciphers cfg P (ps i) (calls_to i (other_calls d)) base n) ->
  ~ In (k2, proof) (f_macs d) -> (forall n, ~ In (base, n) (f_streams d)) ->
  N.of_nat (4 * length (other_calls d) + length (f_macs d)) < 2 ^ 128 - 3 ->
  (forall x, said_text (f_claim d) <> nb ++ challenge_bytes cfg ch ++ x) ->
  exists P' sk' K', person_made cfg P' (ps 0%nat) /\ (forall i, others d i -> person_made cfg P' (ps i)) /\ key_of P' (ps 0%nat) = k2
    /\ let d' := pry cfg P' (fun i => pe_client (ps i)) sk' s [] [] [] in
       same_finding d d' /\ same_talk cfg P P' ps d d'
       /\ concludes cfg P' (pe_client (ps 0%nat)) (calls_to 0 (f_calls d)) ch (f_draws d') b K' /\ ~ mic_taken P' K' (f_claim d').
Proof.
  intros cfg P ps sk s ch t b K nb HLE L M k2 d proof base TC C T A NK U OH OR NH NR SZ NT.
  destruct (C129_free_lem _ _ _ _ _ _ _ _ _ _ HLE L M TC C T A NK U OH OR NH NR) as (x & l & _ & _ & _ & Ll & H). fold d in Ll, H.
  destruct (fresh_key l) as (K' & HK' & NV). { lia. }
  destruct (other_byte (said_mic (f_claim d))) as (v & Bv & Nv).
  destruct (H K' (fun _ => v) HK' NV (fun _ => Bv)) as (P' & sk' & M' & M1 & E2 & SF & ST & C' & HM).
  exists P', sk', K'. split; [exact M'|]. split; [exact M1|]. split; [exact E2|]. cbv zeta. split; [exact SF|]. split; [exact ST|]. split; [exact C'|].
  destruct SF as (_ & _ & _ & _ & -> & _). unfold mic_taken. rewrite HM by apply NT. exact Nv.
Qed.
(** But a server that checks the MIC as MS-NLMP says refuses, in such a world, the reply of the
    client itself: the text under its MIC is not the message that was sent (C29). *)
Lemma C129_genuine_lem : forall cfg P ps sk s ch t b K nb, host_le cfg = true -> 3 <= pe_level (ps 0%nat) ->
  (forall i, person_made cfg P (ps i)) ->
  let k2 := key_of P (ps 0%nat) in
  let d := pry cfg P (fun i => pe_client (ps i)) sk s [] [] [] in
  let proof := proof_of cfg P k2 ch (f_draws d) t in
  let base := base_key_of cfg P k2 ch (f_draws d) t in
  Forall typed_call (map snd (other_calls d)) ->
  concludes cfg P (pe_client (ps 0%nat)) (calls_to 0 (f_calls d)) ch (f_draws d) b K -> response_time ch (f_draws d) = Some t ->
  answer cfg P (pe_client (ps 0%nat)) (calls_to 0 (f_calls d)) OpNegociate = OutBytes nb ->
  NTOWFv1 P (pe_password (ps 0%nat)) <> k2 ->
  unrepeated cfg P k2 (calls_to 0 (other_calls d)) ch (f_draws d) t ->
  (forall i, others d i -> ~ person_asks cfg P (ps i) (calls_to i (other_calls d)) k2 proof) ->
  (forall i n, others d i -> ~ person_enciphers cfg P (ps i) (calls_to i (other_calls d)) base n) ->
  ~ In (k2, proof) (f_macs d) -> (forall n, ~ In (base, n) (f_streams d)) ->
  N.of_nat (4 * length (other_calls d) + length (f_macs d)) < 2 ^ 128 - 3 ->
  exists P' sk' K', person_made cfg P' (ps 0%nat) /\ (forall i, others d i -> person_made cfg P' (ps i)) /\ key_of P' (ps 0%nat) = k2
    /\ let d' := pry cfg P' (fun i => pe_client (ps i)) sk' s [] [] [] in
       same_finding d d' /\ same_talk cfg P P' ps d d'
       /\ concludes cfg P' (pe_client (ps 0%nat)) (calls_to 0 (f_calls d)) ch (f_draws d') b K'
       /\ p_hmac_md5 P' K' (nb ++ challenge_bytes cfg ch ++ zero_mic b) <> sub b 64 16.
Proof.
  intros cfg P ps sk s ch t b K nb HLE L M k2 d proof base TC C T A NK U OH OR NH NR SZ.
  destruct (C129_free_lem _ _ _ _ _ _ _ _ _ _ HLE L M TC C T A NK U OH OR NH NR) as (x & l & _ & NX & _ & Ll & H). fold d in Ll, H.
  destruct (fresh_key l) as (K' & HK' & NV). { lia. }
  destruct (other_byte (sub b 64 16)) as (v & Bv & Nv).
  destruct (H K' (fun _ => v) HK' NV (fun _ => Bv)) as (P' & sk' & M' & M1 & E2 & SF & ST & C' & HM).
  exists P', sk', K'. split; [exact M'|]. split; [exact M1|]. split; [exact E2|]. cbv zeta. split; [exact SF|]. split; [exact ST|]. split; [exact C'|].
  rewrite HM; [exact Nv|]. intros E. apply NX. apply app_inv_head in E. apply app_inv_head in E. now symmetry.
Qed.
(** Somebody who says that the client did not ask for protection. *)
Example C129_ex_lem :
  let P := mixing_prims in
  let ps := pair_of_clients in
  let d := pry cfg_debug P (fun i => pe_client (ps i)) (e_session_key sample_entropy) meddling [] [] [] in
  let k2 := key_of P (ps 0%nat) in
  (forall i, person_made cfg_debug P (ps i))
  /\ NTOWFv1 P (pe_password (ps 0%nat)) <> k2
  /\ Forall typed_call (map snd (other_calls d))
  /\ concludes cfg_debug P (pe_client (ps 0%nat)) (calls_to 0 (f_calls d)) sealed_challenge (f_draws d) (mixed_reply no_reply) (mixed_key no_reply)
  /\ answer cfg_debug P (pe_client (ps 0%nat)) (calls_to 0 (f_calls d)) OpNegociate = OutBytes mixed_offer
  /\ (exists t, response_time sealed_challenge (f_draws d) = Some t
       /\ let proof := proof_of cfg_debug P k2 sealed_challenge (f_draws d) t in
          let base := base_key_of cfg_debug P k2 sealed_challenge (f_draws d) t in
          unrepeated cfg_debug P k2 (calls_to 0 (other_calls d)) sealed_challenge (f_draws d) t
          /\ (forall i, others d i -> ~ person_asks cfg_debug P (ps i) (calls_to i (other_calls d)) k2 proof)
          /\ (forall i n, others d i -> ~ person_enciphers cfg_debug P (ps i) (calls_to i (other_calls d)) base n)
          /\ ~ In (k2, proof) (f_macs d) /\ forall n, ~ In (base, n) (f_streams d))
  /\ said_text (f_claim d) = unprotected mixed_offer ++ challenge_bytes cfg_debug sealed_challenge ++ zero_mic (mixed_reply no_reply)
  /\ (forall x, said_text (f_claim d) <> mixed_offer ++ challenge_bytes cfg_debug sealed_challenge ++ x)
  /\ u32_at mixed_offer 12 = N.lor (u32_at (unprotected mixed_offer) 12) 32816.
Proof.
  cbv zeta. destruct (curious_facts (fun n b z => z ++ unprotected n ++ challenge_bytes cfg_debug sealed_challenge ++ zero_mic b))
    as (H1 & H2 & H3 & H4 & H5 & H6 & H7 & H8 & H9 & H10 & H11 & H12).
  fold meddling in *. split; [exact H1|]. split; [exact H2|]. split; [exact H8|]. split; [exact H9|].
  split. { rewrite H3. vm_compute. reflexivity. }
  split; [exact H10|].
  assert (E : said_text (f_claim (pry cfg_debug mixing_prims (fun i => pe_client (pair_of_clients i)) (e_session_key sample_entropy) meddling [] [] []))
    = unprotected mixed_offer ++ challenge_bytes cfg_debug sealed_challenge ++ zero_mic (mixed_reply no_reply)) by (vm_compute; reflexivity).
  split; [exact E|]. split; [|vm_compute; reflexivity].
  intros x X. rewrite E in X. apply (f_equal (firstn 16)) in X.
  rewrite !firstn_app in X. vm_compute in X. discriminate X.
Qed.
