(** Property theorems proved in [FactsCut.v]; generated by tools/gen.py. *)
From Verif Require Import Base Nom Unicode Wire Structures Prims Messages Spec SpecStream Lib Encode Decode RoundTrip Parse Samples FactsEncode FactsDecode FactsCut.

(** * C82: Messages cut short *)
(** Each beginning [p] of a NEGOTIATE that decodes: an error if the fixed part is cut, a panic if a field is, and
    the whole message if nothing but unused bytes is cut. *)
Theorem C82_negotiate : forall cfg p t r n, negotiate_de cfg (p ++ t) = POk r n ->
  negotiate_de cfg p = cut_at p (fixed_negotiate (p ++ t)) (negotiate_end (p ++ t)) n.
Proof. exact C82_negotiate_lem. Qed.
Print Assumptions C82_negotiate.
(** The same of CHALLENGE. *)
Theorem C82_challenge : forall cfg p t r c, challenge_de cfg (p ++ t) = POk r c ->
  challenge_de cfg p = cut_at p (fixed_challenge (p ++ t)) (challenge_end (p ++ t)) c.
Proof. exact C82_challenge_lem. Qed.
Print Assumptions C82_challenge.
(** The same of AUTHENTICATE. *)
Theorem C82_authenticate : forall cfg p t r a, authenticate_de cfg (p ++ t) = POk r a ->
  authenticate_de cfg p = cut_at p (fixed_authenticate (p ++ t)) (authenticate_end (p ++ t)) a.
Proof. exact C82_authenticate_lem. Qed.
Print Assumptions C82_authenticate.
(** No message as the crate writes it (a version only with its flag, a session key only with its flag) can be cut
    anywhere and still decode. *)
Theorem C82_no_beginning_decodes : forall cfg p t, t <> [] ->
  (forall n r m, valid_negotiate n -> (n_version n <> None -> N.testbit (n_flags n) 25 = true) ->
     serialize cfg (negotiate_ser n) = Val (p ++ t) -> negotiate_de cfg p <> POk r m)
  /\ (forall c r m, valid_challenge c -> (ch_version c <> None -> N.testbit (ch_flags c) 25 = true) ->
     serialize cfg (challenge_ser cfg c) = Val (p ++ t) -> challenge_de cfg p <> POk r m)
  /\ (forall a r m, valid_authenticate a -> (a_version a <> None -> N.testbit (a_flags a) 25 = true) ->
     (a_session_key a <> None -> N.testbit (a_flags a) 30 = true) ->
     serialize cfg (authenticate_ser cfg a) = Val (p ++ t) -> authenticate_de cfg p <> POk r m).
Proof. exact C82_no_beginning_decodes_lem. Qed.
Print Assumptions C82_no_beginning_decodes.
(** 20 of the bytes of an encoded NEGOTIATE are an error, all but one a panic, all of them and junk the message;
    a message with unused bytes at its end does without them. *)
Example C82_ex :
  let b := negotiate_bytes sample_negotiate in
  negotiate_de cfg_debug b = POk [] sample_negotiate
  /\ negotiate_end b = len b /\ fixed_negotiate b = 40
  /\ negotiate_de cfg_debug (firstn 20 b) = PErr EError
  /\ negotiate_de cfg_debug (removelast b) = PPanic PSlice
  /\ negotiate_end (b ++ [1; 2; 3]) = len b
  /\ (exists a, authenticate_de cfg_debug (authenticate_bytes cfg_debug sample_authenticate) = POk [] a)
  /\ (exists c, challenge_de cfg_debug (challenge_bytes cfg_debug sample_challenge) = POk [] c).
Proof. exact C82_ex_lem. Qed.
