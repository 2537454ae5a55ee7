(** Property theorems proved in [FactsForgery.v]; generated by tools/gen.py. *)
From Verif Require Import Base Nom Unicode Wire Structures Prims Messages Crypto Client Spec SpecBuild SpecCrypto SpecClient SpecServer SpecLmv2 Lib Encode Decode RoundTrip Parse Samples FactsEncode FactsDecode FactsBuild DesKey RealPrims FactsCrypto SamplesClient History Reply FactsClient SpecTrace Trace FactsTrace SamplesLabour SamplesLmv2 SamplesTiming FactsServer FactsLmv2 FactsTiming SamplesPlaces FactsPlaces SpecQueries SamplesQueries FactsQueries SpecForgery SamplesForgery FactsForgery.

(** * C120: Nobody logs on without the key *)
(** Whatever somebody does who talks to clients (of this account or others, at any level) and
    hashes: if no client answered the server's challenge, and they did not hash a text that
    begins with it under the account's NTLMv2 key, then in some world all they were told is
    the same, they send the same message, and the server refuses it. *)
Theorem C120_no_forgery : forall cfg P who s calls hashed b db w a, host_le cfg = true -> prims_ok P ->
  (forall i, person_made cfg P (who i)) ->
  play cfg P (fun i => pe_client (who i)) s [] [] = (calls, hashed, b) ->
  Forall (fun x => typed_call (snd x)) calls ->
  is_buffer 8 (sub w 24 8) ->
  (forall i ch r, answered (calls_to i calls) ch r -> ch_server_challenge ch <> sub w 24 8) ->
  db (field_data b 36) (field_data b 28) = Some a ->
  (forall m, In (NTOWFv2 P (acc_password a) (acc_user a) (acc_domain a), m) hashed -> firstn 8 m <> sub w 24 8) ->
  NTOWFv1 P (acc_password a) <> NTOWFv2 P (acc_password a) (acc_user a) (acc_domain a) ->
  (forall i, no_luck cfg P (NTOWFv2 P (acc_password a) (acc_user a) (acc_domain a)) (sub w 24 8) (who i) (calls_to i calls)) ->
  exists H, prims_ok (with_hmac P H)
    /\ (forall i, person_made cfg (with_hmac P H) (who i))
    /\ play cfg (with_hmac P H) (fun i => pe_client (who i)) s [] [] = (calls, hashed, b)
    /\ NTOWFv2 (with_hmac P H) (acc_password a) (acc_user a) (acc_domain a) = NTOWFv2 P (acc_password a) (acc_user a) (acc_domain a)
    /\ takes_v2 (with_hmac P H) db w b = false.
Proof. exact C120_no_forgery_lem. Qed.
Print Assumptions C120_no_forgery.
(** There is such a world for every answer: for all 2^128 values that what begins with the
    server's challenge may have under the account's key, they are told the same and send the
    same, and for all but two of these values the server refuses the message. *)
Theorem C120_odds : forall cfg P who s calls hashed b db w a, host_le cfg = true -> prims_ok P ->
  (forall i, person_made cfg P (who i)) ->
  play cfg P (fun i => pe_client (who i)) s [] [] = (calls, hashed, b) ->
  Forall (fun x => typed_call (snd x)) calls ->
  is_buffer 8 (sub w 24 8) ->
  (forall i ch r, answered (calls_to i calls) ch r -> ch_server_challenge ch <> sub w 24 8) ->
  db (field_data b 36) (field_data b 28) = Some a ->
  (forall m, In (NTOWFv2 P (acc_password a) (acc_user a) (acc_domain a), m) hashed -> firstn 8 m <> sub w 24 8) ->
  NTOWFv1 P (acc_password a) <> NTOWFv2 P (acc_password a) (acc_user a) (acc_domain a) ->
  (forall i, no_luck cfg P (NTOWFv2 P (acc_password a) (acc_user a) (acc_domain a)) (sub w 24 8) (who i) (calls_to i calls)) ->
  exists lucky, (length lucky <= 2)%nat
  /\ forall v, is_buffer 16 v ->
  exists H, prims_ok (with_hmac P H)
    /\ (forall i, person_made cfg (with_hmac P H) (who i))
    /\ play cfg (with_hmac P H) (fun i => pe_client (who i)) s [] [] = (calls, hashed, b)
    /\ NTOWFv2 (with_hmac P H) (acc_password a) (acc_user a) (acc_domain a) = NTOWFv2 P (acc_password a) (acc_user a) (acc_domain a)
    /\ (forall m, firstn 8 m = sub w 24 8 -> H (NTOWFv2 P (acc_password a) (acc_user a) (acc_domain a)) m = v)
    /\ (~ In v lucky -> takes_v2 (with_hmac P H) db w b = false).
Proof. exact C120_odds_lem. Qed.
Print Assumptions C120_odds.
(** What was left out works.  A client of the account that is given the server's challenge
    answers it for whoever asks. *)
Theorem C120_relay : forall cfg P who ch r b db w, host_le cfg = true -> 3 <= pe_level (who 0%nat) ->
  person_made cfg P (who 0%nat) -> valid_challenge ch -> is_entropy r ->
  ch_server_challenge ch = sub w 24 8 ->
  db (utf16le (pe_user (who 0%nat))) (utf16le (pe_domain (who 0%nat)))
    = Some (mkAccount (pe_user (who 0%nat)) (pe_domain (who 0%nat)) (pe_password (who 0%nat))) ->
  answer cfg P (pe_client (who 0%nat)) [OpNegociate; OpRecvChallenge ch] (OpAuthenticate r) = OutBytes b ->
  play cfg P (fun i => pe_client (who i)) (relay ch r) [] []
    = ([(0%nat, OpNegociate); (0%nat, OpRecvChallenge ch); (0%nat, OpAuthenticate r)], [], b)
  /\ takes_v2 P db w b = true.
Proof. exact C120_relay_lem. Qed.
Print Assumptions C120_relay.
(** The NTLMv2 key is as good as the password: one HMAC is enough, with no client at all. *)
Theorem C120_key : forall cfg P cs user dom cc db w a, prims_ok P ->
  len user < 65536 -> len dom < 65536 -> is_buffer 8 cc -> db user dom = Some a ->
  exists b, play cfg P cs (use_key (NTOWFv2 P (acc_password a) (acc_user a) (acc_domain a)) (sub w 24 8) cc user dom) [] []
      = ([], [(NTOWFv2 P (acc_password a) (acc_user a) (acc_domain a), sub w 24 8 ++ cc)], b)
    /\ takes_v2 P db w b = true.
Proof. exact C120_key_lem. Qed.
Print Assumptions C120_key.
Example C120_ex :
  (forall i, person_made cfg_debug mixing_prims (anybody i))
  /\ play cfg_debug mixing_prims (fun i => pe_client (anybody i)) guess [] [] = (guess_calls, guess_hashed, guess_sent)
  /\ Forall (fun x => typed_call (snd x)) guess_calls
  /\ answered (calls_to 0 guess_calls) sealed_challenge sample_entropy /\ answered (calls_to 7 guess_calls) other_challenge sample_entropy
  /\ is_buffer 8 (sub third_message 24 8)
  /\ (forall i ch r, answered (calls_to i guess_calls) ch r -> ch_server_challenge ch <> sub third_message 24 8)
  /\ one_account (field_data guess_sent 36) (field_data guess_sent 28) = Some (mkAccount str_User str_Domain str_Password)
  /\ (forall m, In (NTOWFv2 mixing_prims str_Password str_User str_Domain, m) guess_hashed -> firstn 8 m <> sub third_message 24 8)
  /\ NTOWFv1 mixing_prims str_Password <> NTOWFv2 mixing_prims str_Password str_User str_Domain
  /\ (forall i, no_luck cfg_debug mixing_prims (NTOWFv2 mixing_prims str_Password str_User str_Domain) (sub third_message 24 8)
        (anybody i) (calls_to i guess_calls))
  /\ field_data guess_sent 36 = utf16le str_User /\ len (field_data guess_sent 12) = 24
  /\ takes_v2 mixing_prims one_account third_message guess_sent = false
  /\ len relay_sent = 306 /\ takes_v2 mixing_prims one_account sealed_message relay_sent = true
  /\ takes_v2 mixing_prims one_account third_message relay_sent = false.
Proof. exact C120_ex_lem. Qed.
