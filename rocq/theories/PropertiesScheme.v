(** Property theorems proved in [FactsScheme.v]; generated by tools/gen.py. *)
From Verif Require Import Base Nom Unicode Wire Structures Prims Messages Crypto Client Spec SpecBuild SpecCrypto SpecClient SpecServer SpecLmv2 Lib Encode Decode RoundTrip Parse Samples FactsEncode FactsDecode FactsBuild DesKey RealPrims FactsCrypto SamplesClient History Reply FactsClient SpecTrace Trace FactsTrace SamplesLabour SamplesLmv2 SamplesTiming FactsServer FactsLmv2 FactsTiming SamplesPlaces FactsPlaces SpecQueries SamplesQueries FactsQueries SpecForgery SamplesForgery FactsForgery SpecBlocks SamplesBlocks FactsBlocks SpecScheme SamplesScheme FactsScheme.

(** * C126: Nobody logs on without the hash *)
(** The same of a server that takes every response: if no client answered its challenge or
    encrypted the block it wants to see encrypted, and whoever sends the message has computed
    neither an HMAC of a text that begins with the challenge under the NTLMv2 key of the
    account, nor DES of that block under all three keys of the NT hash, then in some world they
    are told the same, send the same, and are refused. *)
Theorem C126_nobody : forall cfg P who s db w a k, host_le cfg = true -> prims_ok P -> des_permutes P ->
  (forall i, person_made cfg P (who i)) ->
  let d := carry_out cfg P (fun i => pe_client (who i)) s [] [] [] in
  let b := d_sent d in
  Forall (fun x => typed_call (snd x)) (d_calls d) -> Forall (fun p => is_buffer 8 (fst p) /\ is_buffer 8 (snd p)) (d_ciphers d) ->
  N.of_nat (length (d_calls d) + length (d_ciphers d)) < 18446744073709551612 ->
  is_buffer 8 (sub w 24 8) ->
  db (field_data b 36) (field_data b 28) = Some a ->
  (forall i ch r, answered (calls_to i (d_calls d)) ch r ->
     ch_server_challenge ch <> sub w 24 8 /\ (pe_level (who i) <= 2 -> reply_plain P ch r <> wanted_plain P w b)) ->
  (forall m, In (NTOWFv2 P (acc_password a) (acc_user a) (acc_domain a), m) (d_macs d) -> firstn 8 m <> sub w 24 8) ->
  In k (des_keys (NTOWFv1 P (acc_password a))) -> ~ In (k, wanted_plain P w b) (d_ciphers d) ->
  wanted_plain P w b <> MAGIC ->
  NTOWFv1 P (acc_password a) <> NTOWFv2 P (acc_password a) (acc_user a) (acc_domain a) ->
  (forall i, no_luck cfg P (NTOWFv2 P (acc_password a) (acc_user a) (acc_domain a)) (sub w 24 8) (who i) (calls_to i (d_calls d))) ->
  exists H D, prims_ok (with_both P H D) /\ des_permutes (with_both P H D)
    /\ (forall i, person_made cfg (with_both P H D) (who i))
    /\ carry_out cfg (with_both P H D) (fun i => pe_client (who i)) s [] [] [] = d
    /\ NTOWFv2 (with_both P H D) (acc_password a) (acc_user a) (acc_domain a) = NTOWFv2 P (acc_password a) (acc_user a) (acc_domain a)
    /\ logs_on (with_both P H D) db w b = false.
Proof. exact C126_nobody_lem. Qed.
Print Assumptions C126_nobody.
(** There is such a world for almost every answer: for all but two of the 2^128 values that
    what begins with the server's challenge may have under the NTLMv2 key, and then for all
    values that the block may have under that DES key but for at most four more than they made
    calls and encryptions. *)
Theorem C126_odds : forall cfg P who s db w a k, host_le cfg = true -> prims_ok P -> des_permutes P ->
  (forall i, person_made cfg P (who i)) ->
  let d := carry_out cfg P (fun i => pe_client (who i)) s [] [] [] in
  let b := d_sent d in
  Forall (fun x => typed_call (snd x)) (d_calls d) -> Forall (fun p => is_buffer 8 (fst p) /\ is_buffer 8 (snd p)) (d_ciphers d) ->
  is_buffer 8 (sub w 24 8) ->
  db (field_data b 36) (field_data b 28) = Some a ->
  (forall i ch r, answered (calls_to i (d_calls d)) ch r ->
     ch_server_challenge ch <> sub w 24 8 /\ (pe_level (who i) <= 2 -> reply_plain P ch r <> wanted_plain P w b)) ->
  (forall m, In (NTOWFv2 P (acc_password a) (acc_user a) (acc_domain a), m) (d_macs d) -> firstn 8 m <> sub w 24 8) ->
  In k (des_keys (NTOWFv1 P (acc_password a))) -> ~ In (k, wanted_plain P w b) (d_ciphers d) ->
  wanted_plain P w b <> MAGIC ->
  NTOWFv1 P (acc_password a) <> NTOWFv2 P (acc_password a) (acc_user a) (acc_domain a) ->
  (forall i, no_luck cfg P (NTOWFv2 P (acc_password a) (acc_user a) (acc_domain a)) (sub w 24 8) (who i) (calls_to i (d_calls d))) ->
  exists lucky, (length lucky <= 2)%nat
  /\ forall v, is_buffer 16 v -> ~ In v lucky ->
  exists lucky', (length lucky' <= length (d_calls d) + length (d_ciphers d) + 4)%nat
  /\ forall v', is_buffer 8 v' -> ~ In v' lucky' ->
  exists H D, prims_ok (with_both P H D) /\ des_permutes (with_both P H D)
    /\ (forall i, person_made cfg (with_both P H D) (who i))
    /\ carry_out cfg (with_both P H D) (fun i => pe_client (who i)) s [] [] [] = d
    /\ NTOWFv2 (with_both P H D) (acc_password a) (acc_user a) (acc_domain a) = NTOWFv2 P (acc_password a) (acc_user a) (acc_domain a)
    /\ (forall m, firstn 8 m = sub w 24 8 -> H (NTOWFv2 P (acc_password a) (acc_user a) (acc_domain a)) m = v)
    /\ D k (wanted_plain P w b) = v'
    /\ logs_on (with_both P H D) db w b = false.
Proof. exact C126_odds_lem. Qed.
Print Assumptions C126_odds.
Example C126_ex :
  let b := d_sent both_done in
  (forall i, person_made cfg_debug mixing_prims (folk i))
  /\ des_permutes mixing_prims
  /\ Forall (fun x => typed_call (snd x)) (d_calls both_done) /\ Forall (fun p => is_buffer 8 (fst p) /\ is_buffer 8 (snd p)) (d_ciphers both_done)
  /\ (length (d_calls both_done), length (d_macs both_done), length (d_ciphers both_done)) = (6, 1, 3)%nat
  /\ is_buffer 8 (sub third_message 24 8)
  /\ one_account (field_data b 36) (field_data b 28) = Some (mkAccount str_User str_Domain str_Password)
  /\ (forall i ch r, answered (calls_to i (d_calls both_done)) ch r ->
        ch_server_challenge ch <> sub third_message 24 8 /\ (pe_level (folk i) <= 2 -> reply_plain mixing_prims ch r <> wanted_plain mixing_prims third_message b))
  /\ (forall m, In (NTOWFv2 mixing_prims str_Password str_User str_Domain, m) (d_macs both_done) -> firstn 8 m <> sub third_message 24 8)
  /\ (des_keys (NTOWFv1 mixing_prims str_Password) = [key1; key2; key3] /\ ~ In (key1, wanted_plain mixing_prims third_message b) (d_ciphers both_done)
      /\ In (key2, wanted_plain mixing_prims third_message b) (d_ciphers both_done) /\ In (key3, wanted_plain mixing_prims third_message b) (d_ciphers both_done))
  /\ wanted_plain mixing_prims third_message b <> MAGIC
  /\ NTOWFv1 mixing_prims str_Password <> NTOWFv2 mixing_prims str_Password str_User str_Domain
  /\ (forall i, no_luck cfg_debug mixing_prims (NTOWFv2 mixing_prims str_Password str_User str_Domain) (sub third_message 24 8)
        (folk i) (calls_to i (d_calls both_done)))
  /\ logs_on mixing_prims one_account third_message b = false.
Proof. exact C126_ex_lem. Qed.
