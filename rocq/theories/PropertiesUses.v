(** Property theorems proved in [FactsUses.v]; generated by tools/gen.py. *)
From Verif Require Import Base Nom Unicode Wire Structures Prims Messages Crypto Client Spec SpecBuild SpecCrypto SpecClient SpecServer SpecLmv2 Lib Encode Decode RoundTrip Parse Samples FactsEncode FactsDecode FactsBuild DesKey RealPrims FactsCrypto SamplesClient History Reply FactsClient SpecTrace Trace FactsTrace SamplesLabour SamplesLmv2 SamplesTiming FactsServer FactsLmv2 FactsTiming SamplesPlaces FactsPlaces SpecQueries SamplesQueries FactsQueries SpecForgery SamplesForgery FactsForgery SpecBlocks SamplesBlocks FactsBlocks SpecSecrecy SamplesSecrecy FactsReply FactsSecrecy SpecUses SamplesUses FactsUses.

(** * C128: All uses of the cryptographic primitives *)
(** All that a client computes, over any history, comes from the primitives at the points
    listed: with other primitives that agree there the same client is made, and every call
    returns the same and leaves the client in the same state. *)
Theorem C128_uses : forall cfg P P' e level user dom pw target c h, host_le cfg = true ->
  made cfg P e level user dom pw target c -> Forall typed_call h -> prims_ok P' ->
  same_uses cfg P P' level user dom pw h ->
  made cfg P' e level user dom pw target c
  /\ transcript cfg P' c h = transcript cfg P c h /\ run cfg P' c h = run cfg P c h.
Proof. exact C128_uses_lem. Qed.
Print Assumptions C128_uses.
(** A client of level 3 that replies twice, with primitives of which only the values at its
    points are left; and one of level 1, which does need MD4, MD5 and RC4 in its replies. *)
Example C128_ex :
  (exists target, made cfg_debug mixing_prims host_env 3 str_User str_Domain str_Password target (mixing_client 3 str_Password))
  /\ Forall typed_call two_replies /\ prims_ok sparse_prims
  /\ same_uses cfg_debug mixing_prims sparse_prims 3 str_User str_Domain str_Password two_replies
  /\ map (fun o => match o with OutBytes b => len b | _ => 0 end) said = [38; 0; 306; 38; 0; 184]
  /\ transcript cfg_debug sparse_prims (mixing_client 3 str_Password) two_replies = said
  /\ said_old without_md4 <> said_old moving_prims /\ said_old without_md5 <> said_old moving_prims
  /\ said_old without_rc4 <> said_old moving_prims.
Proof. exact C128_ex_lem. Qed.
