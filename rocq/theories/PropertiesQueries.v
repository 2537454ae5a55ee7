(** Property theorems proved in [FactsQueries.v]; generated by tools/gen.py. *)
From Verif Require Import Base Nom Unicode Wire Structures Prims Messages Crypto Client Spec SpecBuild SpecCrypto SpecClient Lib Encode Decode RoundTrip Parse Samples FactsEncode FactsDecode FactsBuild DesKey RealPrims FactsCrypto SamplesClient History Reply FactsClient SpecTrace FactsTrace SamplesLabour SamplesLmv2 SamplesTiming FactsLmv2 FactsTiming SamplesPlaces FactsPlaces SpecQueries SamplesQueries FactsQueries.

(** * C119: Old answers tell nothing about new ones *)
(** Everything a client says, over any history, comes from HMAC-MD5 at the points listed:
    with another HMAC-MD5 that agrees there the same client is made, and every call returns
    the same. *)
Theorem C119_queries : forall cfg P H e level user dom pw target c h, host_le cfg = true ->
  made cfg P e level user dom pw target c -> Forall typed_call h -> prims_ok (with_hmac P H) ->
  (forall k m, asks cfg P level user dom pw h k m -> H k m = p_hmac_md5 P k m) ->
  made cfg (with_hmac P H) e level user dom pw target c
  /\ transcript cfg (with_hmac P H) c h = transcript cfg P c h.
Proof. exact C119_queries_lem. Qed.
Print Assumptions C119_queries.
(** What a client of levels 3 to 5 has said tells nothing about the answer to a server
    challenge [sc] it was never given: every 16 bytes are the HMAC of [sc] and what follows
    it, under the NTLMv2 key of the account, in some world in which the same client said the
    same. *)
Theorem C119_unanswered : forall cfg P e level user dom pw target c h sc x v, host_le cfg = true -> 3 <= level ->
  made cfg P e level user dom pw target c -> Forall typed_call h ->
  is_buffer 8 sc -> (forall ch r, answered h ch r -> ch_server_challenge ch <> sc) ->
  no_accident cfg P user dom pw h (sc ++ x) -> is_buffer 16 v ->
  exists H, made cfg (with_hmac P H) e level user dom pw target c
    /\ transcript cfg (with_hmac P H) c h = transcript cfg P c h
    /\ NTOWFv2 (with_hmac P H) pw user dom = NTOWFv2 P pw user dom
    /\ H (NTOWFv2 (with_hmac P H) pw user dom) (sc ++ x) = v.
Proof. exact C119_unanswered_lem. Qed.
Print Assumptions C119_unanswered.
(** What a client of levels 3 to 5 has said tells neither its password nor its NTLMv2 key:
    whatever password and whatever 16 bytes for the key, in some world the client with this
    password has this key and said the same. *)
Theorem C119_hidden : forall cfg P e level user dom pw pw' target c h k, host_le cfg = true -> 3 <= level ->
  made cfg P e level user dom pw target c -> Forall typed_call h ->
  is_string pw' -> lm_hashable P pw' -> is_buffer 16 k ->
  key_free cfg P user dom pw pw' h k ->
  exists H c', made cfg (with_hmac P H) e level user dom pw' target c'
    /\ NTOWFv2 (with_hmac P H) pw' user dom = k
    /\ transcript cfg (with_hmac P H) c' h = transcript cfg P c h.
Proof. exact C119_hidden_lem. Qed.
Print Assumptions C119_hidden.
(** Two replies were sent; the answer to a third server challenge can be any 16 bytes; the
    answers to the first two cannot.  Another password, with the key 0707...07, could have sent
    them. *)
Example C119_ex :
  (exists target, made cfg_debug mixing_prims host_env 3 str_User str_Domain str_Password target (mixing_client 3 str_Password))
  /\ Forall typed_call two_replies
  /\ answered two_replies sealed_challenge sample_entropy /\ answered two_replies other_challenge sample_entropy
  /\ (forall ch r, answered two_replies ch r -> ch_server_challenge ch <> third_nonce)
  /\ no_accident cfg_debug mixing_prims str_User str_Domain str_Password two_replies (third_nonce ++ e_client_challenge sample_entropy)
  /\ (lm_hashable mixing_prims str_Secret /\ key_free cfg_debug mixing_prims str_User str_Domain str_Password str_Secret two_replies (repeat 7 16))
  /\ (map (fun o => match o with OutBytes b => len b | _ => 0 end) said, said_with (third_nonce ++ e_client_challenge sample_entropy) (zeros 16))
     = ([38; 0; 306; 38; 0; 184], said)
  /\ said_with (ch_server_challenge sealed_challenge ++ e_client_challenge sample_entropy) (zeros 16) <> said
  /\ said_with (ch_server_challenge other_challenge ++ e_client_challenge sample_entropy) (zeros 16) <> said.
Proof. exact C119_ex_lem. Qed.
