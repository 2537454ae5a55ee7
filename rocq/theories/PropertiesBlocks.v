(** Property theorems proved in [FactsBlocks.v]; generated by tools/gen.py. *)
From Verif Require Import Base Nom Unicode Wire Structures Prims Messages Crypto Client Spec SpecBuild SpecCrypto SpecClient SpecServer SpecLmv2 Lib Encode Decode RoundTrip Parse Samples FactsEncode FactsDecode FactsBuild DesKey RealPrims FactsCrypto SamplesClient History Reply FactsClient SpecTrace Trace FactsTrace SamplesLabour SamplesLmv2 SamplesTiming FactsServer FactsLmv2 FactsTiming SamplesPlaces FactsPlaces SpecQueries SamplesQueries FactsQueries SpecForgery SamplesForgery FactsForgery SpecBlocks SamplesBlocks FactsBlocks.

(** * C124: Old NTLMv1 answers tell nothing about new ones *)
(** Everything a client says, over any history, comes from DES at the points listed: with
    another DES that agrees there the same client is made, and every call returns the same.
    Clients of levels 3 to 5 use DES only when they are made. *)
Theorem C124_queries : forall cfg P D e level user dom pw target c h, host_le cfg = true ->
  made cfg P e level user dom pw target c -> Forall typed_call h -> prims_ok (with_des P D) ->
  (forall k x, encrypts P level pw h k x -> D k x = p_des P k x) ->
  made cfg (with_des P D) e level user dom pw target c
  /\ transcript cfg (with_des P D) c h = transcript cfg P c h.
Proof. exact C124_queries_lem. Qed.
Print Assumptions C124_queries.
(** What a client of levels 0 to 2 has said tells nothing about the response to a block [x] it
    has not encrypted: any three blocks it has not got under the three keys of the NT hash (the
    same one if two of the keys are the same) are the response, in some world in which DES is a permutation under every key, as it is in this
    one, and the same client said the same. *)
Theorem C124_unanswered : forall cfg P e level user dom pw target c h x k1 k2 k3 v1 v2 v3, host_le cfg = true ->
  made cfg P e level user dom pw target c -> des_permutes P -> Forall typed_call h ->
  is_buffer 8 x -> (forall k, In k [k1; k2; k3] -> ~ encrypts P level pw h k x) ->
  des_keys (NTOWFv1 P pw) = [k1; k2; k3] -> (k1 = k2 -> v1 = v2) -> (k1 = k3 -> v1 = v3) -> (k2 = k3 -> v2 = v3) ->
  is_buffer 8 v1 -> is_buffer 8 v2 -> is_buffer 8 v3 ->
  (forall y, encrypts P level pw h k1 y -> p_des P k1 y <> v1) ->
  (forall y, encrypts P level pw h k2 y -> p_des P k2 y <> v2) ->
  (forall y, encrypts P level pw h k3 y -> p_des P k3 y <> v3) ->
  exists D, made cfg (with_des P D) e level user dom pw target c /\ des_permutes (with_des P D)
    /\ transcript cfg (with_des P D) c h = transcript cfg P c h
    /\ NTOWFv1 (with_des P D) pw = NTOWFv1 P pw
    /\ DESL (with_des P D) (NTOWFv1 P pw) x = v1 ++ v2 ++ v3.
Proof. exact C124_unanswered_lem. Qed.
Print Assumptions C124_unanswered.
(** Two replies of a client of level 1: the blocks encrypted are the two server challenges, and
    a third block can have any response not yet seen; another value of DES at the third block
    changes nothing, at the second it does.  At level 3 no value of DES matters but those for
    "KGS!@#$%". *)
Example C124_ex :
  (exists target, made cfg_debug mixing_prims host_env 1 str_User str_Domain str_Password target (mixing_client 1 str_Password))
  /\ des_permutes mixing_prims /\ Forall typed_call two_replies
  /\ encrypts mixing_prims 1 str_Password two_replies key1 (ch_server_challenge other_challenge)
  /\ (forall k, ~ encrypts mixing_prims 1 str_Password two_replies k third_nonce)
  /\ des_keys (NTOWFv1 mixing_prims str_Password) = [key1; key2; key3] /\ NoDup [key1; key2; key3]
  /\ (forall k y, In k [key1; key2; key3] -> encrypts mixing_prims 1 str_Password two_replies k y -> p_des mixing_prims k y <> zeros 8)
  /\ map (fun o => match o with OutBytes b => len b | _ => 0 end) (old_said 1 mixing_prims) = [38; 0; 180; 38; 0; 180]
  /\ old_said 1 (with_des mixing_prims (zero_at third_nonce)) = old_said 1 mixing_prims
  /\ old_said 1 (with_des mixing_prims (zero_at (ch_server_challenge other_challenge))) <> old_said 1 mixing_prims
  /\ old_said 3 (with_des mixing_prims (zero_at (ch_server_challenge other_challenge))) = old_said 3 mixing_prims.
Proof. exact C124_ex_lem. Qed.

(** * C125: Nobody logs on with NTLMv1 without the NT hash *)
(** Whatever somebody does who talks to clients (of this account or others, at any level) and
    computes DES, fewer than 2^64 - 4 times in all: if no client encrypted the block the
    server wants encrypted, and under one of the three keys of the account's NT hash they did
    not encrypt it either, then in some world in which DES is a permutation under every key all
    they were told is the same, they send the same message, and the server does not take it for
    an NTLMv1 response. *)
Theorem C125_no_forgery : forall cfg P who s calls points b db w a k, host_le cfg = true -> prims_ok P -> des_permutes P ->
  (forall i, person_made cfg P (who i)) ->
  attempt cfg P (fun i => pe_client (who i)) s [] [] = (calls, points, b) ->
  Forall (fun x => typed_call (snd x)) calls -> Forall (fun p => is_buffer 8 (fst p) /\ is_buffer 8 (snd p)) points ->
  N.of_nat (length calls + length points) < 18446744073709551612 ->
  is_buffer 8 (sub w 24 8) ->
  (forall i ch r, answered (calls_to i calls) ch r -> pe_level (who i) <= 2 -> reply_plain P ch r <> wanted_plain P w b) ->
  wanted_plain P w b <> MAGIC ->
  db (field_data b 36) (field_data b 28) = Some a ->
  In k (des_keys (NTOWFv1 P (acc_password a))) -> ~ In (k, wanted_plain P w b) points ->
  exists D, prims_ok (with_des P D) /\ des_permutes (with_des P D)
    /\ (forall i, person_made cfg (with_des P D) (who i))
    /\ attempt cfg (with_des P D) (fun i => pe_client (who i)) s [] [] = (calls, points, b)
    /\ takes_v1 (with_des P D) db w b = false.
Proof. exact C125_no_forgery_lem. Qed.
Print Assumptions C125_no_forgery.
(** There is such a world for almost every answer: for all values that the block may have under
    that key, but for at most four more than they made steps, they are told the same, send the
    same and are refused. *)
Theorem C125_odds : forall cfg P who s calls points b db w a k, host_le cfg = true -> prims_ok P -> des_permutes P ->
  (forall i, person_made cfg P (who i)) ->
  attempt cfg P (fun i => pe_client (who i)) s [] [] = (calls, points, b) ->
  Forall (fun x => typed_call (snd x)) calls -> Forall (fun p => is_buffer 8 (fst p) /\ is_buffer 8 (snd p)) points ->
  is_buffer 8 (sub w 24 8) ->
  (forall i ch r, answered (calls_to i calls) ch r -> pe_level (who i) <= 2 -> reply_plain P ch r <> wanted_plain P w b) ->
  wanted_plain P w b <> MAGIC ->
  db (field_data b 36) (field_data b 28) = Some a ->
  In k (des_keys (NTOWFv1 P (acc_password a))) -> ~ In (k, wanted_plain P w b) points ->
  exists lucky, (length lucky <= length calls + length points + 4)%nat
  /\ forall v, is_buffer 8 v -> ~ In v lucky ->
  exists D, prims_ok (with_des P D) /\ des_permutes (with_des P D)
    /\ (forall i, person_made cfg (with_des P D) (who i))
    /\ attempt cfg (with_des P D) (fun i => pe_client (who i)) s [] [] = (calls, points, b)
    /\ D k (wanted_plain P w b) = v
    /\ takes_v1 (with_des P D) db w b = false.
Proof. exact C125_odds_lem. Qed.
Print Assumptions C125_odds.
(** What was left out works.  A client of the account, of levels 0 to 2, that is given the
    server's challenge answers it for whoever asks. *)
Theorem C125_relay : forall cfg P who ch r b db w, host_le cfg = true -> pe_level (who 0%nat) <= 2 ->
  person_made cfg P (who 0%nat) -> valid_challenge ch -> is_entropy r ->
  ch_server_challenge ch = sub w 24 8 -> ch_flags ch = u32_at w 20 ->
  db (utf16le (pe_user (who 0%nat))) (utf16le (pe_domain (who 0%nat)))
    = Some (mkAccount (pe_user (who 0%nat)) (pe_domain (who 0%nat)) (pe_password (who 0%nat))) ->
  answer cfg P (pe_client (who 0%nat)) [OpNegociate; OpRecvChallenge ch] (OpAuthenticate r) = OutBytes b ->
  attempt cfg P (fun i => pe_client (who i)) (relay_v1 ch r) [] []
    = ([(0%nat, OpNegociate); (0%nat, OpRecvChallenge ch); (0%nat, OpAuthenticate r)], [], b)
  /\ takes_v1 P db w b = true.
Proof. exact C125_relay_lem. Qed.
Print Assumptions C125_relay.
(** The NT hash is as good as the password: three encryptions are enough, with no client at
    all. *)
Theorem C125_hash : forall cfg P cs user dom cc db w a x, prims_ok P ->
  len user < 65536 -> len dom < 65536 -> is_buffer 8 cc -> is_buffer 8 (sub w 24 8) -> db user dom = Some a ->
  x = v1_plain P (u32_at w 20) (sub w 24 8) cc ->
  exists b, attempt cfg P cs (use_hash (NTOWFv1 P (acc_password a)) x user dom cc) [] []
      = ([], map (fun k => (k, x)) (des_keys (NTOWFv1 P (acc_password a))), b)
    /\ wanted_plain P w b = x /\ takes_v1 P db w b = true.
Proof. exact C125_hash_lem. Qed.
Print Assumptions C125_hash.
Example C125_ex :
  (forall i, person_made cfg_debug mixing_prims (old_folk i))
  /\ des_permutes mixing_prims
  /\ attempt cfg_debug mixing_prims (fun i => pe_client (old_folk i)) wild_guess [] [] = (guess_calls, wild_points, wild_sent)
  /\ Forall (fun x => typed_call (snd x)) guess_calls /\ Forall (fun p => is_buffer 8 (fst p) /\ is_buffer 8 (snd p)) wild_points
  /\ is_buffer 8 (sub third_message 24 8)
  /\ (forall i ch r, answered (calls_to i guess_calls) ch r -> pe_level (old_folk i) <= 2 ->
        reply_plain mixing_prims ch r <> wanted_plain mixing_prims third_message wild_sent)
  /\ wanted_plain mixing_prims third_message wild_sent = third_nonce
  /\ one_account (field_data wild_sent 36) (field_data wild_sent 28) = Some (mkAccount str_User str_Domain str_Password)
  /\ In key1 (des_keys (NTOWFv1 mixing_prims str_Password)) /\ ~ In (key1, third_nonce) wild_points
  /\ takes_v1 mixing_prims one_account third_message wild_sent = false
  /\ takes_v1 mixing_prims one_account third_message hash_sent = true
  /\ takes_v1 mixing_prims one_account other_message relay_v1_sent = true
  /\ takes_v1 mixing_prims one_account third_message relay_v1_sent = false.
Proof. exact C125_ex_lem. Qed.
