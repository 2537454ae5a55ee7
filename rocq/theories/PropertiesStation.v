(** Property theorems proved in [FactsStation.v]; generated by tools/gen.py. *)
From Verif Require Import Base Nom Unicode Wire Structures Prims Messages Crypto Client Spec SpecBuild SpecCrypto SpecClient SpecServer SamplesLabour SamplesLmv2 Lib Encode Decode RoundTrip Parse Samples FactsEncode FactsDecode FactsBuild DesKey RealPrims FactsCrypto SamplesClient History Reply FactsClient FactsReply SamplesPlaces FactsPlaces FactsStation.

(** * C38: Workstation name *)
(** Every reply carries the workstation name in UTF-16, and nothing in its place if there is none. *)
Theorem C38_sent : forall cfg P e level user dom pw ws ch r b, host_le cfg = true ->
  replies cfg P e level user dom pw ch r b -> workstation_name P e ws ->
  field_data b 44 = match ws with Some s => utf16le s | None => [] end.
Proof. exact C38_sent_lem. Qed.
Print Assumptions C38_sent.
(** "COMPUTER", at levels 0 and 3 *)
Example C38_sent_ex :
  Forall (fun level => replies cfg_debug mixing_prims host_env level str_User str_Domain str_Password sealed_challenge sample_entropy
                         (mixing_reply level str_Password sealed_challenge)
    /\ field_data (mixing_reply level str_Password sealed_challenge) 44 = [67; 0; 79; 0; 77; 0; 80; 0; 85; 0; 84; 0; 69; 0; 82; 0]) [0; 3].
Proof. exact C38_sent_ex_lem. Qed.
