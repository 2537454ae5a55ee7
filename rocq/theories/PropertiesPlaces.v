(** Property theorems proved in [FactsPlaces.v]; generated by tools/gen.py. *)
From Verif Require Import Base Nom Unicode Wire Structures Prims Messages Crypto Client Spec SpecBuild SpecCrypto SpecClient Lib Encode Decode RoundTrip Parse Samples FactsEncode FactsDecode FactsBuild DesKey RealPrims FactsCrypto SamplesClient History Reply FactsClient FactsEndian FactsEffort SamplesLabour SamplesLmv2 SamplesTiming FactsLmv2 FactsTiming SpecPlaces SamplesPlaces FactsPlaces.

(** * C117: Where the password goes in a reply *)
(** At levels 3 to 5 replies that differ in the password only have the same length and
    differ at most in the MIC, in the first 16 bytes of the LM response and, with key
    exchange, in the encrypted session key. *)
Theorem C117_v2 : forall cfg P e level user dom pw pw' ch r b b', 3 <= level ->
  replies cfg P e level user dom pw ch r b -> replies cfg P e level user dom pw' ch r b' ->
  len b = len b'
  /\ forall i, apart b b' i -> within i 64 16 \/ within i 80 16 \/ (key_exchange (ch_flags ch) = true /\ within i (len b - 16) 16).
Proof. exact C117_v2_lem. Qed.
Print Assumptions C117_v2.
(** At levels 0 to 2 they differ at most in the LM response, unless the challenge asks for
    extended session security, in the NT response and, with key exchange, in the encrypted
    session key. *)
Theorem C117_v1 : forall cfg P e level user dom pw pw' ch r b b', level <= 2 ->
  replies cfg P e level user dom pw ch r b -> replies cfg P e level user dom pw' ch r b' ->
  len b = len b'
  /\ forall i, apart b b' i ->
     (ESS (ch_flags ch) = false /\ within i 80 24) \/ within i 104 24 \/ (key_exchange (ch_flags ch) = true /\ within i (len b - 16) 16).
Proof. exact C117_v1_lem. Qed.
Print Assumptions C117_v1.
(** With primitives that mix their keys in, two passwords make replies that differ in each
    of these places. *)
Example C117_ex :
  Forall (fun level => Forall (fun ch => Forall (fun pw =>
    replies cfg_debug mixing_prims host_env level str_User str_Domain pw ch sample_entropy (mixing_reply level pw ch))
    [str_Password; str_Secret]) [sealed_challenge; old_challenge]) [0; 1; 3]
  /\ (key_exchange (ch_flags sealed_challenge), key_exchange (ch_flags old_challenge)) = (true, false)
  /\ (ESS (ch_flags sealed_challenge), ESS (ch_flags old_challenge)) = (true, false)
  /\ let seen level ch := let b := mixing_reply level str_Password ch in let b' := mixing_reply level str_Secret ch in (len b, differences 0 b b') in
     seen 1 sealed_challenge = (180, [104; 105; 107; 109; 111; 113; 114; 115; 116; 117; 118; 120; 164; 166; 168; 170; 172; 174; 176; 178])
  /\ seen 0 old_challenge = (180, [80; 81; 82; 83; 85; 86; 87; 88; 89; 104; 105; 107; 109; 111; 113; 114; 115; 116; 117; 118; 120])
  /\ seen 3 sealed_challenge = (306, [80; 82; 84; 86; 88; 90; 92; 94; 290; 292; 294; 296; 298; 300; 302; 304])
  /\ seen 3 old_challenge = (184, [64; 66; 68; 70; 72; 74; 76; 78; 80; 82; 84; 86; 88; 90; 92; 94]).
Proof. exact C117_ex_lem. Qed.
