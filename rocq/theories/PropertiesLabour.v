(** Property theorems proved in [FactsLabour.v]; generated by tools/gen.py. *)
From Verif Require Import Base Nom Unicode Wire Structures Prims Messages Crypto Client Spec SpecBuild SpecCrypto SpecClient SpecRemote Lib Encode Decode RoundTrip Parse Samples Cost FactsCost Effort FactsEncode FactsDecode FactsBuild DesKey RealPrims FactsCrypto SamplesClient History Reply FactsClient FactsEndian FactsEffort FactsRemote SamplesLabour Labour FactsLabour.

(** * C110: Answering takes work linear in what was received *)
(** What the counting calls return is what the calls return. *)
Theorem C110_same : forall cfg P e level user dom pw target c h r,
  made cfg P e level user dom pw target c -> is_entropy r -> (forall ch, accepts h ch -> valid_challenge ch) ->
  snd (send_negociate_labour (run cfg P c h)) = send_negociate (run cfg P c h)
  /\ snd (send_authenticate_labour cfg P (run cfg P c h) r) = send_authenticate cfg P (run cfg P c h) r.
Proof. exact C110_same_lem. Qed.
Print Assumptions C110_same.
(** Offering takes work linear in the name of the domain, after whatever was called before. *)
Theorem C110_offer : forall cfg P e level user dom pw target c h,
  made cfg P e level user dom pw target c ->
  fst (send_negociate_labour (run cfg P c h)) <= 97 + 4 * len (utf8 dom).
Proof. exact C110_offer_lem. Qed.
Print Assumptions C110_offer.
(** Decoding the bytes of the server and answering them takes work linear in
    these bytes and in the three names, whether the answer is sent or the call panics. *)
Theorem C110_linear : forall cfg P e level user dom pw target c h r ws b rest ch,
  made cfg P e level user dom pw target c -> workstation_name P e ws -> is_entropy r ->
  is_bytes b -> challenge_de cfg b = POk rest ch -> accepts h ch ->
  fst (challenge_work cfg b) + fst (send_authenticate_labour cfg P (run cfg P c h) r)
  <= 26 * len b + 15 * names_bytes user dom ws + 2101.
Proof. exact C110_linear_lem. Qed.
Print Assumptions C110_linear.
(** So it is bounded whatever a server sends, for names of bounded length. *)
Theorem C110_bounded : forall cfg P e level user dom pw target c h r ws b rest ch,
  made cfg P e level user dom pw target c -> workstation_name P e ws -> is_entropy r -> names_short user dom ws ->
  is_bytes b -> challenge_de cfg b = POk rest ch -> accepts h ch ->
  fst (challenge_work cfg b) + fst (send_authenticate_labour cfg P (run cfg P c h) r) <= 4655086.
Proof. exact C110_bounded_lem. Qed.
Print Assumptions C110_bounded.
Example C110_ex : let b := challenge_bytes cfg_debug sealed_challenge in let h := sample_history sealed_challenge in
  made cfg_debug zero_prims host_env 3 str_User str_Domain str_Password str_target (zero_client 3)
  /\ workstation_name zero_prims host_env (Some str_COMPUTER) /\ is_entropy sample_entropy
  /\ names_short str_User str_Domain (Some str_COMPUTER) /\ names_bytes str_User str_Domain (Some str_COMPUTER) = 36
  /\ is_bytes b /\ len b = 182 /\ challenge_de cfg_debug b = POk [] sealed_challenge
  /\ accepts h sealed_challenge
  /\ fst (send_negociate_labour (run cfg_debug zero_prims (zero_client 3) h)) = 94
  /\ fst (challenge_work cfg_debug b) = 262
  /\ fst (send_authenticate_labour cfg_debug zero_prims (run cfg_debug zero_prims (zero_client 3) h) sample_entropy) = 3546
  /\ fst (send_authenticate_labour cfg_debug zero_prims (run cfg_debug zero_prims (zero_client 0) h) sample_entropy) = 999.
Proof. exact C110_ex_lem. Qed.
