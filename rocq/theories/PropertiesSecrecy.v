(** Property theorems proved in [FactsSecrecy.v]; generated by tools/gen.py. *)
From Verif Require Import Base Nom Unicode Wire Structures Prims Messages Crypto Client Spec SpecBuild SpecCrypto SpecClient Lib Encode Decode RoundTrip Parse Samples FactsEncode FactsDecode FactsBuild DesKey RealPrims FactsCrypto SamplesClient History Reply FactsClient FactsReply SpecTrace Trace FactsTrace SamplesLabour SamplesLmv2 SamplesTiming FactsLmv2 FactsTiming SamplesPlaces FactsPlaces SpecQueries SamplesQueries FactsQueries SpecSecrecy SamplesSecrecy FactsSecrecy.

(** * C121: Messages do not tell the session key *)
(** The messages of a client of levels 3 to 5 do not tell the session key it agreed to: for
    every 16 bytes that are not another key of it, in some world the same client sent the same
    over its whole life, before the reply and after it, and has these 16 bytes as session key.
    The world differs at the points one has to know for the session key: HMAC-MD5 under the
    other session key and at NTProofStr under the NTLMv2 key, RC4 under the session base key.
    The client drew another session key at most. *)
Theorem C121_session_key : forall cfg P e level user dom pw target c h g ch r t b K K', host_le cfg = true -> 3 <= level ->
  made cfg P e level user dom pw target c -> Forall typed_call (h ++ g) ->
  concludes cfg P c h ch r b K -> response_time ch r = Some t ->
  is_buffer 16 K' -> unused_key cfg P user dom pw (h ++ g) K' ->
  NTOWFv1 P pw <> NTOWFv2 P pw user dom ->
  unrepeated cfg P (NTOWFv2 P pw user dom) (h ++ g) ch r t ->
  exists P' r', made cfg P' e level user dom pw target c
    /\ NTOWFv2 P' pw user dom = NTOWFv2 P pw user dom
    /\ transcript cfg P' c (h ++ OpAuthenticate r' :: g) = transcript cfg P c (h ++ OpAuthenticate r :: g)
    /\ concludes cfg P' c h ch r' b K'
    /\ e_client_challenge r' = e_client_challenge r /\ e_clock r' = e_clock r
    /\ same_but_hmac_rc4 P P'
    /\ (forall k m, k <> K' -> ~ (k = NTOWFv2 P pw user dom /\ m = proof_of cfg P (NTOWFv2 P pw user dom) ch r t) ->
         p_hmac_md5 P' k m = p_hmac_md5 P k m)
    /\ (forall k n, k <> base_key_of cfg P (NTOWFv2 P pw user dom) ch r t -> p_rc4_stream P' k n = p_rc4_stream P k n).
Proof. exact C121_session_key_lem. Qed.
Print Assumptions C121_session_key.
(** Nor do the messages of a client of levels 0 to 2: every 16 bytes may be the key.  The
    world differs in RC4 under the key that encrypted the session key, or, if none was sent,
    in HMAC-MD5 where it gave the session key. *)
Theorem C121_session_key_old : forall cfg P e level user dom pw target c h g ch r b K K' lm, host_le cfg = true -> level <= 2 ->
  made cfg P e level user dom pw target c -> lmowfv1 P pw = Val lm -> Forall typed_call (h ++ g) ->
  concludes cfg P c h ch r b K ->
  is_buffer 16 K' -> p_md4 P (NTOWFv1 P pw) <> NTOWFv1 P pw ->
  (forall ch' r', answered (h ++ g) ch' r' ->
     old_base_key P level (NTOWFv1 P pw) lm ch' r' <> old_base_key P level (NTOWFv1 P pw) lm ch r) ->
  exists P' r', made cfg P' e level user dom pw target c
    /\ transcript cfg P' c (h ++ OpAuthenticate r' :: g) = transcript cfg P c (h ++ OpAuthenticate r :: g)
    /\ concludes cfg P' c h ch r' b K'
    /\ e_client_challenge r' = e_client_challenge r /\ e_clock r' = e_clock r
    /\ same_but_hmac_rc4 P P'
    /\ (if key_exchange (ch_flags ch)
        then p_hmac_md5 P' = p_hmac_md5 P
             /\ forall k n, k <> old_base_key P level (NTOWFv1 P pw) lm ch r -> p_rc4_stream P' k n = p_rc4_stream P k n
        else p_rc4_stream P' = p_rc4_stream P
             /\ forall k m, ~ (k = p_md4 P (NTOWFv1 P pw) /\ m = old_key_message P level (NTOWFv1 P pw) lm ch r) ->
                  p_hmac_md5 P' k m = p_hmac_md5 P k m).
Proof. exact C121_session_key_old_lem. Qed.
Print Assumptions C121_session_key_old.
(** A key that was exchanged, and one that was not. *)
Example C121_ex :
  (exists target, made cfg_debug mixing_prims host_env 3 str_User str_Domain str_Password target (mixing_client 3 str_Password))
  /\ NTOWFv1 mixing_prims str_Password <> NTOWFv2 mixing_prims str_Password str_User str_Domain
  /\ (forall h ch, (h, ch) = (no_reply, sealed_challenge) \/ (h, ch) = (one_reply, other_challenge) ->
       Forall typed_call h
       /\ concludes cfg_debug mixing_prims (mixing_client 3 str_Password) h ch sample_entropy (mixed_reply h) (mixed_key h)
       /\ mixed_key h <> repeat 7 16 /\ is_buffer 16 (repeat 7 16)
       /\ unused_key cfg_debug mixing_prims str_User str_Domain str_Password h (repeat 7 16)
       /\ exists t, response_time ch sample_entropy = Some t
            /\ unrepeated cfg_debug mixing_prims (NTOWFv2 mixing_prims str_Password str_User str_Domain) h ch sample_entropy t)
  /\ key_exchange (ch_flags sealed_challenge) = true /\ key_exchange (ch_flags other_challenge) = false
  /\ mixed_key no_reply = e_session_key sample_entropy
  /\ (exists ch r, answered one_reply ch r).
Proof. exact C121_ex_lem. Qed.
(** The same at level 1. *)
Example C121_ex_old :
  (exists target, made cfg_debug moving_prims host_env 1 str_User str_Domain str_Password target moving_client)
  /\ p_md4 moving_prims (NTOWFv1 moving_prims str_Password) <> NTOWFv1 moving_prims str_Password
  /\ (exists lm, lmowfv1 moving_prims str_Password = Val lm
      /\ forall h ch, (h, ch) = (no_reply, sealed_challenge) \/ (h, ch) = (one_reply, other_challenge) ->
       Forall typed_call h
       /\ concludes cfg_debug moving_prims moving_client h ch sample_entropy (moved_reply h) (moved_key h)
       /\ moved_key h <> repeat 7 16 /\ is_buffer 16 (repeat 7 16)
       /\ forall ch' r', answered h ch' r' ->
            old_base_key moving_prims 1 (NTOWFv1 moving_prims str_Password) lm ch' r'
            <> old_base_key moving_prims 1 (NTOWFv1 moving_prims str_Password) lm ch sample_entropy)
  /\ key_exchange (ch_flags sealed_challenge) = true /\ key_exchange (ch_flags other_challenge) = false
  /\ moved_key no_reply = e_session_key sample_entropy.
Proof. exact C121_ex_old_lem. Qed.
