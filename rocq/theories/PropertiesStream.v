(** Property theorems proved in [FactsStream.v]; generated by tools/gen.py. *)
From Verif Require Import Base Nom Unicode Wire Structures Messages Spec SpecStream Lib Encode Decode RoundTrip Parse
  Samples FactsEncode FactsDecode FactsStream.

(** * C75: Requests for more bytes *)
Theorem C75_negotiate_never : forall cfg b n, negotiate_de cfg b <> PErr (EIncomplete n).
Proof. exact C75_negotiate_never_lem. Qed.
Print Assumptions C75_negotiate_never.
(** Exactly when the CHALLENGE decoder asks for more bytes, and for how many. *)
Theorem C75_challenge_incomplete : forall cfg b n, is_bytes b ->
  (challenge_de cfg b = PErr (EIncomplete n) <-> challenge_incomplete cfg b n).
Proof. exact C75_challenge_incomplete_lem. Qed.
Print Assumptions C75_challenge_incomplete.
(** Exactly when the AUTHENTICATE decoder asks for more bytes, and for how many. *)
Theorem C75_authenticate_incomplete : forall cfg b n, is_bytes b ->
  (authenticate_de cfg b = PErr (EIncomplete n) <-> authenticate_incomplete cfg b n).
Proof. exact C75_authenticate_incomplete_lem. Qed.
Print Assumptions C75_authenticate_incomplete.
(** No number of further bytes turns the request into anything else: the same
    number of bytes is asked for again. *)
Theorem C75_more_bytes_do_not_help : forall cfg b t n, is_bytes b -> is_bytes t ->
  (challenge_de cfg b = PErr (EIncomplete n) -> challenge_de cfg (b ++ t) = PErr (EIncomplete n))
  /\ (authenticate_de cfg b = PErr (EIncomplete n) -> authenticate_de cfg (b ++ t) = PErr (EIncomplete n)).
Proof. exact C75_more_bytes_do_not_help_lem. Qed.
Print Assumptions C75_more_bytes_do_not_help.
(** So a beginning of an acceptable message never makes a decoder ask for the rest. *)
Theorem C75_beginnings : forall cfg b t n, is_bytes b -> is_bytes t ->
  (forall c r, challenge_de cfg (b ++ t) = POk r c -> challenge_de cfg b <> PErr (EIncomplete n))
  /\ (forall a r, authenticate_de cfg (b ++ t) = POk r a -> authenticate_de cfg b <> PErr (EIncomplete n)).
Proof. exact C75_beginnings_lem. Qed.
Print Assumptions C75_beginnings.
(** The number asked for is between 1 and 65535. *)
Theorem C75_amount : forall cfg b n, is_bytes b ->
  challenge_de cfg b = PErr (EIncomplete n) \/ authenticate_de cfg b = PErr (EIncomplete n) -> 0 < n < 65536.
Proof. exact C75_amount_lem. Qed.
Print Assumptions C75_amount.
Example C75_ex : is_bytes ten_short /\ challenge_de cfg_debug ten_short = PErr (EIncomplete 10)
  /\ challenge_de cfg_debug (firstn 40 (challenge_bytes cfg_debug sample_challenge)) = PErr EError
  /\ challenge_de cfg_debug (firstn 60 (challenge_bytes cfg_debug sample_challenge)) = PPanic PSlice.
Proof. exact C75_ex_lem. Qed.

(** * C76: Decoded messages are no larger than the input *)
(** Every component of a decoded message is no larger than the input, and than 65535 bytes. *)
Theorem C76_negotiate_size : forall cfg b r n, is_bytes b -> negotiate_de cfg b = POk r n ->
  bounded (oem_size (n_domain n)) b /\ bounded (oem_size (n_workstation n)) b.
Proof. exact C76_negotiate_size_lem. Qed.
Print Assumptions C76_negotiate_size.
Theorem C76_challenge_size : forall cfg b r c, is_bytes b -> challenge_de cfg b = POk r c ->
  bounded (text_size (ch_target_name c)) b /\ len (ch_server_challenge c) = 8
  /\ bounded (av_sizes (ch_target_infos c)) b.
Proof. exact C76_challenge_size_lem. Qed.
Print Assumptions C76_challenge_size.
Theorem C76_authenticate_size : forall cfg b r a, is_bytes b -> authenticate_de cfg b = POk r a ->
  bounded (lm_size (a_lm a)) b /\ bounded (nt_size (a_nt a)) b
  /\ bounded (text_size (a_domain a)) b /\ bounded (text_size (a_user a)) b
  /\ bounded (text_size (a_workstation a)) b /\ bounded (key_size (a_session_key a)) b
  /\ len (a_mic a) = 16.
Proof. exact C76_authenticate_size_lem. Qed.
Print Assumptions C76_authenticate_size.
Example C76_ex : let b := challenge_bytes cfg_debug sample_challenge in
  len b = 182 /\ exists c, challenge_de cfg_debug b = POk [] c
  /\ text_size (ch_target_name c) = 12 /\ av_sizes (ch_target_infos c) <> 0.
Proof. exact C76_ex_lem. Qed.
