(** Property theorems proved in [FactsCost.v]; generated by tools/gen.py. *)
From Verif Require Import Base Nom Unicode Wire Structures Messages Spec Lib Encode Decode RoundTrip Parse Samples SamplesCost Cost FactsCost.

(** * C100: Decoding takes work linear in the input *)
(** The decoders that count are the decoders. *)
Theorem C100_same : forall cfg b, is_bytes b ->
  snd (negotiate_work cfg b) = negotiate_de cfg b
  /\ snd (challenge_work cfg b) = challenge_de cfg b
  /\ snd (authenticate_work cfg b) = authenticate_de cfg b.
Proof. exact C100_same_lem. Qed.
Print Assumptions C100_same.
(** Accepted or refused, a message is decoded in work linear in its length. *)
Theorem C100_linear : forall cfg b, is_bytes b ->
  fst (negotiate_work cfg b) <= 2 * len b + 58
  /\ fst (challenge_work cfg b) <= 5 * len b + 90
  /\ fst (authenticate_work cfg b) <= 9 * len b + 248.
Proof. exact C100_linear_lem. Qed.
Print Assumptions C100_linear.
(** However long the input: only what fields of at most 65535 bytes refer to is looked at. *)
Theorem C100_bounded : forall cfg b, is_bytes b ->
  fst (negotiate_work cfg b) <= 131128
  /\ fst (challenge_work cfg b) <= 327765
  /\ fst (authenticate_work cfg b) <= 590063.
Proof. exact C100_bounded_lem. Qed.
Print Assumptions C100_bounded.
Example C100_ex :
  negotiate_work cfg_release [78; 84; 76; 77; 83; 83; 80; 0] = (10, negotiate_de cfg_release [78; 84; 76; 77; 83; 83; 80; 0])
  /\ len (busy_authenticate 10) = 168
  /\ fst (authenticate_work cfg_release (busy_authenticate 10)) = 640
  /\ len (calm_authenticate 10) = 168
  /\ fst (authenticate_work cfg_release (calm_authenticate 10)) = 271
  /\ (match authenticate_de cfg_release (busy_authenticate 10) with POk _ _ => true | _ => false end) = true.
Proof. exact C100_ex_lem. Qed.
(** A byte may be looked at more than once: fields may overlap, and a message
    whose three names are its NT response takes more than seven units for every byte. *)
Theorem C100_once_refuted :
  ~ (forall cfg b, is_bytes b -> fst (authenticate_work cfg b) <= 7 * len b + 248).
Proof. exact C100_once_refuted_lem. Qed.
Print Assumptions C100_once_refuted.
