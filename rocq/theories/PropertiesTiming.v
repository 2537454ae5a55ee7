(** Property theorems proved in [FactsTiming.v]; generated by tools/gen.py. *)
From Verif Require Import Base Nom Unicode Wire Structures Prims Messages Crypto Client Spec SpecBuild SpecCrypto SpecClient SpecRemote Lib Encode Decode RoundTrip Parse Samples Cost FactsCost Effort FactsEncode FactsDecode FactsBuild DesKey RealPrims FactsCrypto SamplesClient History Reply FactsClient FactsEndian FactsEffort FactsRemote SamplesLabour Labour FactsLabour Creation SpecCreation FactsCreation SamplesLmv2 FactsLmv2 SamplesTiming FactsTiming.

(** * C115: The work of a call tells nothing of the password *)
(** The work of an answer is the same whatever the password and the target are,
    whatever was drawn and whatever was called before, as long as both have a time to send
    or neither has. *)
Theorem C115_answer : forall cfg P e level user dom pw pw' target target' c c' h h' r r' ch,
  made cfg P e level user dom pw target c -> made cfg P e level user dom pw' target' c' ->
  is_entropy r -> is_entropy r' -> (response_time ch r = None <-> response_time ch r' = None) ->
  accepts h ch -> accepts h' ch -> valid_challenge ch ->
  fst (send_authenticate_labour cfg P (run cfg P c h) r) = fst (send_authenticate_labour cfg P (run cfg P c' h') r').
Proof. exact C115_answer_lem. Qed.
Print Assumptions C115_answer.
(** So is the work of an offer. *)
Theorem C115_offer : forall cfg P e level user dom pw pw' target target' c c' h h',
  made cfg P e level user dom pw target c -> made cfg P e level user dom pw' target' c' ->
  fst (send_negociate_labour (run cfg P c h)) = fst (send_negociate_labour (run cfg P c' h')).
Proof. exact C115_offer_lem. Qed.
Print Assumptions C115_offer.
(** Creating a client takes the same work for all ASCII passwords of one length, *)
Theorem C115_creation : forall cfg P e level account pw pw' target target', prims_ok P ->
  is_ascii pw -> is_ascii pw' -> length pw = length pw' ->
  fst (client_new_labour cfg P e level account pw target) = fst (client_new_labour cfg P e level account pw' target').
Proof. exact C115_creation_lem. Qed.
Print Assumptions C115_creation.
(** but the length of a password shows. *)
Theorem C115_creation_refuted : ~ (forall cfg P e level account pw pw' target, prims_ok P -> is_ascii pw -> is_ascii pw' ->
  fst (client_new_labour cfg P e level account pw target) = fst (client_new_labour cfg P e level account pw' target)).
Proof. exact C115_creation_refuted_lem. Qed.
Print Assumptions C115_creation_refuted.
Example C115_ex : let h := sample_history sealed_challenge in let h' := [OpNegociate; OpRecvChallenge sealed_challenge] in
  let c := head_client 3 str_Password str_target in let c' := head_client 3 str_Secret [] in
  made cfg_debug head_prims host_env 3 str_User str_Domain str_Password str_target c
  /\ made cfg_debug head_prims host_env 3 str_User str_Domain str_Secret [] c'
  /\ is_entropy sample_entropy /\ is_entropy other_entropy /\ (response_time sealed_challenge sample_entropy = None <-> response_time sealed_challenge other_entropy = None)
  /\ accepts h sealed_challenge /\ accepts h' sealed_challenge /\ valid_challenge sealed_challenge
  /\ answer cfg_debug head_prims c h (OpAuthenticate sample_entropy) <> answer cfg_debug head_prims c' h' (OpAuthenticate sample_entropy)
  /\ fst (send_authenticate_labour cfg_debug head_prims (run cfg_debug head_prims c h) sample_entropy) = 3546
  /\ fst (send_authenticate_labour cfg_debug head_prims (run cfg_debug head_prims c' h') other_entropy) = 3546
  /\ is_ascii str_Password /\ is_ascii str_Passw0rd /\ length str_Password = length str_Passw0rd
  /\ fst (client_new_labour cfg_debug head_prims host_env 3 str_User str_Passw0rd []) = 196.
Proof. exact C115_ex_lem. Qed.
