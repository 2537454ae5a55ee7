(** Property theorems proved in [FactsLog.v]; generated by tools/gen.py. *)
From Coq Require Import ZifyBool ZifyNat ZifyN Ascii String.
From Verif Require Import Base Nom Unicode Wire Structures Messages Debug Log Spec SpecLog Lib Encode Decode RoundTrip Parse
  Samples FactsEncode FactsDecode FactsStream FactsLog.

(** * C77: What is logged while decoding *)
(** Forgetting the log gives the decoders of the model. *)
Theorem C77_log_erases : forall cfg b,
  snd (l_negotiate cfg b) = negotiate_de cfg b
  /\ snd (l_challenge cfg b) = challenge_de cfg b
  /\ snd (l_authenticate cfg b) = authenticate_de cfg b.
Proof. exact C77_log_erases_lem. Qed.
Print Assumptions C77_log_erases.
Theorem C77_negotiate_log : forall cfg b n, negotiate_de cfg b = POk [] n ->
  fst (l_negotiate cfg b) =
    flag_warnings (n_flags n) ++ field_warnings "domain" b 16 0 ++ field_warnings "workstation" b 24 0.
Proof. exact C77_negotiate_log_lem. Qed.
Print Assumptions C77_negotiate_log.
Theorem C77_challenge_log : forall cfg b c, is_bytes b -> challenge_de cfg b = POk [] c ->
  exists k, infos_left cfg b 40 k
  /\ fst (l_challenge cfg b) =
       flag_warnings (ch_flags c) ++ field_warnings "target_name" b 12 (text_left b 12)
       ++ field_warnings "target_infos" b 40 k.
Proof. exact C77_challenge_log_lem. Qed.
Print Assumptions C77_challenge_log.
Theorem C77_authenticate_log : forall cfg b a, is_bytes b -> authenticate_de cfg b = POk [] a ->
  exists k, nt_left cfg b 20 k
  /\ fst (l_authenticate cfg b) =
       flag_warnings (a_flags a) ++ lm_warnings b ++ field_warnings "nt_challenge_response" b 20 k
       ++ field_warnings "domain" b 28 (text_left b 28) ++ field_warnings "user" b 36 (text_left b 36)
       ++ field_warnings "workstation" b 44 (text_left b 44) ++ key_warnings b.
Proof. exact C77_authenticate_log_lem. Qed.
Print Assumptions C77_authenticate_log.
(** Lines about the flags exactly if the flags were reached; after them only lines of known
    forms, so nothing of the content of a field. *)
Theorem C77_any_input : forall cfg b, is_bytes b ->
  logs 1 12 b (fst (l_negotiate cfg b))
  /\ logs 2 20 b (fst (l_challenge cfg b))
  /\ logs 3 60 b (fst (l_authenticate cfg b)).
Proof. exact C77_any_input_lem. Qed.
Print Assumptions C77_any_input.
(** Numbers in lines are in decimal, without leading zeros. *)
Theorem C77_decimal : forall n, Forall is_digit (decimal n) /\ decimal_value (decimal n) = n
  /\ (n <> 0 -> hd 48 (decimal n) <> 48) /\ (n = 0 -> decimal n = [48]).
Proof. exact C77_decimal_lem. Qed.
Print Assumptions C77_decimal.
Example C77_ex :
  let b := challenge_bytes cfg_debug (mkChallenge (Some [65; 0; 66]) 268435457 (repeat 7 8) [] None) in
  is_bytes b /\ challenge_de cfg_debug b = POk [] (mkChallenge (Some [65]) 268435457 (repeat 7 8) [] None)
  /\ fst (l_challenge cfg_debug b) =
       [text "flags.has_flag(R1)"; text "Not all is consumed for target_name. 4 bytes remaning";
        text "Flag for target_infos is set but field is empty"]%string.
Proof. exact C77_ex_lem. Qed.
