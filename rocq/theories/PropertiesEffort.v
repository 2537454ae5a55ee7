(** Property theorems proved in [FactsEffort.v]; generated by tools/gen.py. *)
From Verif Require Import Base Nom Unicode Wire Structures Prims Messages Spec Lib Encode Decode RoundTrip Parse Samples Writer SpecWriter WriterLib FactsEncode FactsWriter Effort SpecEffort FactsEffort.

(** * C108: Encoding takes work linear in the message *)
(** The counting encoders are the encoders. *)
Theorem C108_same : forall cfg w,
  (forall n, valid_negotiate n -> snd (negotiate_effort n w) = negotiate_ser n w)
  /\ (forall c, valid_challenge c -> snd (challenge_effort cfg c w) = challenge_ser cfg c w)
  /\ (forall a, valid_authenticate a -> snd (authenticate_effort cfg a w) = authenticate_ser cfg a w).
Proof. exact C108_same_lem. Qed.
Print Assumptions C108_same.
(** Three units for every byte of the message, whether it is written or, since a
    field is too long, the encoder panics. *)
Theorem C108_linear : forall cfg w,
  (forall n, valid_negotiate n -> fst (negotiate_effort n w) <= 3 * len (negotiate_bytes n))
  /\ (forall c, valid_challenge c -> fst (challenge_effort cfg c w) <= 3 * len (challenge_bytes cfg c))
  /\ (forall a, valid_authenticate a -> fst (authenticate_effort cfg a w) <= 3 * len (authenticate_bytes cfg a)).
Proof. exact C108_linear_lem. Qed.
Print Assumptions C108_linear.
(** Computing the MIC takes four units for every byte of the three messages. *)
Theorem C108_mic : forall cfg P a n c, valid_authenticate a -> valid_negotiate n -> valid_challenge c ->
  snd (mic_effort cfg P a n c) = compute_mic cfg P a n c
  /\ fst (mic_effort cfg P a n c)
     <= 4 * (len (negotiate_bytes n) + len (challenge_bytes cfg c) + len (authenticate_bytes cfg a)).
Proof. exact C108_mic_lem. Qed.
Print Assumptions C108_mic.
(** A message goes to the caller's writer in a fixed number of calls, however
    long it is: the header piece by piece, then the payload at once. *)
Theorem C108_calls : forall cfg w,
  (forall n, valid_negotiate n -> fits (negotiate_fields n) -> takes_at_once (len (negotiate_bytes n)) w ->
     exists w' k, io_negotiate n w = Val (Some (len (negotiate_bytes n)), w') /\ (k <= 10)%nat /\ plan w' = skipn k (plan w))
  /\ (forall c, valid_challenge c -> fits (challenge_fields cfg c) -> takes_at_once (len (challenge_bytes cfg c)) w ->
     exists w' k, io_challenge cfg c w = Val (Some (len (challenge_bytes cfg c)), w') /\ (k <= 12)%nat /\ plan w' = skipn k (plan w))
  /\ (forall a, valid_authenticate a -> fits (authenticate_fields cfg a) -> takes_at_once (len (authenticate_bytes cfg a)) w ->
     exists w' k, io_authenticate cfg a w = Val (Some (len (authenticate_bytes cfg a)), w') /\ (k <= 22)%nat /\ plan w' = skipn k (plan w)).
Proof. exact C108_calls_lem. Qed.
Print Assumptions C108_calls.
(** Two units for every byte do not do: text is written unit by unit, and then copied. *)
Theorem C108_twice_refuted :
  ~ (forall cfg a, valid_authenticate a -> fst (authenticate_effort cfg a []) <= 2 * len (authenticate_bytes cfg a)).
Proof. exact C108_twice_refuted_lem. Qed.
Print Assumptions C108_twice_refuted.
Example C108_ex :
  valid_authenticate sample_authenticate
  /\ len (authenticate_bytes cfg_debug sample_authenticate) = 314
  /\ fst (authenticate_effort cfg_debug sample_authenticate []) = 744
  /\ fits (authenticate_fields cfg_debug sample_authenticate)
  /\ takes_at_once 314 (mkWriter [] (repeat (Accept 314) 30))
  /\ (exists w', io_authenticate cfg_debug sample_authenticate (mkWriter [] (repeat (Accept 314) 30)) = Val (Some 314, w')
               /\ plan w' = repeat (Accept 314) 8).
Proof. exact C108_ex_lem. Qed.
