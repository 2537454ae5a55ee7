(** Property theorems proved in [FactsPrint.v]; generated by tools/gen.py. *)
From Coq Require Import ZifyBool ZifyNat ZifyN Ascii String.
From Verif Require Import Base Nom Unicode Wire Structures Prims Messages Crypto Client Debug Log Print Spec SpecDebug SpecLog SpecPrint
  Lib Samples FactsDebug FactsLog FactsPrint.

(** * C79: Printed messages and structures can be told apart *)
(** Messages printed alike are equal, whatever characters are escaped. *)
Theorem C79_told_apart : forall esc,
  (forall m n, valid_negotiate m -> valid_negotiate n -> negotiate_debug esc m = negotiate_debug esc n -> m = n)
  /\ (forall b c, valid_challenge b -> valid_challenge c -> challenge_debug esc b = challenge_debug esc c -> b = c)
  /\ (forall a b, valid_authenticate a -> valid_authenticate b -> authenticate_debug esc a = authenticate_debug esc b -> a = b)
  /\ (forall s t, valid_state s -> valid_state t -> client_state_debug esc s = client_state_debug esc t -> s = t).
Proof. exact C79_told_apart_lem. Qed.
Print Assumptions C79_told_apart.
Theorem C79_structures_told_apart : forall esc,
  (forall x y, av_id_debug x = av_id_debug y -> x = y)
  /\ (forall x y, version_debug x = version_debug y -> x = y)
  /\ (forall x y, field_debug x = field_debug y -> x = y)
  /\ (forall x y, filetime_debug x = filetime_debug y -> x = y)
  /\ (forall x y, single_host_debug x = single_host_debug y -> x = y)
  /\ (forall x y, av_flags_debug x = av_flags_debug y -> x = y)
  /\ (forall x y, is_buffer 4 (sg_pad x) -> is_buffer 4 (sg_pad y) -> signature_debug x = signature_debug y -> x = y)
  /\ (forall x y, valid_av_pair x -> valid_av_pair y -> av_pair_debug esc x = av_pair_debug esc y -> x = y)
  /\ (forall x y, valid_lm x -> valid_lm y -> lm_challenge_debug x = lm_challenge_debug y -> x = y)
  /\ (forall x y, valid_nt x -> valid_nt y -> nt_challenge_debug esc x = nt_challenge_debug esc y -> x = y).
Proof. exact C79_structures_told_apart_lem. Qed.
Print Assumptions C79_structures_told_apart.
Theorem C79_negotiate_form : forall esc n, negotiate_debug esc n =
  text "Negotiate { negotiate_flags: " ++ names_of (n_flags n)
  ++ text ", domain_name: " ++ some_or_none (option_map (str_debug esc) (n_domain n))
  ++ text ", workstation: " ++ some_or_none (option_map (str_debug esc) (n_workstation n))
  ++ text ", version: " ++ some_or_none (option_map version_form (n_version n)) ++ text " }".
Proof. exact C79_negotiate_form_lem. Qed.
Print Assumptions C79_negotiate_form.
Theorem C79_challenge_form : forall esc c, valid_challenge c -> challenge_debug esc c =
  text "Challenge { target_name: " ++ some_or_none (option_map (str_debug esc) (ch_target_name c))
  ++ text ", negotiate_flags: " ++ names_of (ch_flags c)
  ++ text ", server_challenge: " ++ hex_of (ch_server_challenge c)
  ++ text ", target_infos: " ++ text "[" ++ comma_separated (map (av_pair_debug esc) (ch_target_infos c)) ++ text "]"
  ++ text ", version: " ++ some_or_none (option_map version_form (ch_version c)) ++ text " }".
Proof. exact C79_challenge_form_lem. Qed.
Print Assumptions C79_challenge_form.
Theorem C79_authenticate_form : forall esc a, valid_authenticate a -> authenticate_debug esc a =
  text "Authenticate { lm_challenge_response: " ++ some_or_none (option_map lm_challenge_debug (a_lm a))
  ++ text ", nt_challenge_response: " ++ some_or_none (option_map (nt_challenge_debug esc) (a_nt a))
  ++ text ", domain: " ++ some_or_none (option_map (str_debug esc) (a_domain a))
  ++ text ", user: " ++ some_or_none (option_map (str_debug esc) (a_user a))
  ++ text ", workstation: " ++ some_or_none (option_map (str_debug esc) (a_workstation a))
  ++ text ", encrypted_random_session_key: " ++ some_or_none (option_map hex_of (a_session_key a))
  ++ text ", negotiate_flags: " ++ names_of (a_flags a)
  ++ text ", version: " ++ some_or_none (option_map version_form (a_version a))
  ++ text ", mic: " ++ hex_of (a_mic a)
  ++ text ", exported_session_key: " ++ some_or_none (option_map hex_of (a_exported_key a)) ++ text " }".
Proof. exact C79_authenticate_form_lem. Qed.
Print Assumptions C79_authenticate_form.
(** Strings are printed between quotes, as they are if no character needs escaping. *)
Theorem C79_string_form : forall esc s, Forall (needs_no_escape esc) s -> str_debug esc s = quoted s.
Proof. exact C79_string_form_lem. Qed.
Print Assumptions C79_string_form.
Example C79_ex :
  valid_negotiate (mkNegotiate 33554433 (Some [68; 34; 10; 233; 769]) None (Some (mkVersion 10 0 17763 15)))
  /\ negotiate_debug (fun c => c =? 769) (mkNegotiate 33554433 (Some [68; 34; 10; 233; 769]) None (Some (mkVersion 10 0 17763 15)))
     = text "Negotiate { negotiate_flags: NTLMSSP_NEGOTIATE_VERSION|NTLMSSP_NEGOTIATE_UNICODE, domain_name: Some(" ++ [34]
       ++ text "D\" ++ [34] ++ text "\n" ++ [233] ++ text "\u{301}" ++ [34]
       ++ text "), workstation: None, version: Some(Version { major: 10, minor: 0, build: 17763, revision_count: 15 }) }".
Proof. exact C79_ex_lem. Qed.

(** * C80: Printed messages stay on one line *)
Theorem C80_one_line : forall esc,
  (forall n, Forall (one_line_char esc) (negotiate_debug esc n))
  /\ (forall c, Forall (one_line_char esc) (challenge_debug esc c))
  /\ (forall a, Forall (one_line_char esc) (authenticate_debug esc a)).
Proof. exact C80_one_line_lem. Qed.
Print Assumptions C80_one_line.
(** In particular none contains a line break, whatever strings the message holds. *)
Theorem C80_no_line_break : forall esc,
  (forall n, ~ In 10 (negotiate_debug esc n) /\ ~ In 13 (negotiate_debug esc n))
  /\ (forall c, ~ In 10 (challenge_debug esc c) /\ ~ In 13 (challenge_debug esc c))
  /\ (forall a, ~ In 10 (authenticate_debug esc a) /\ ~ In 13 (authenticate_debug esc a)).
Proof. exact C80_no_line_break_lem. Qed.
Print Assumptions C80_no_line_break.
Example C80_ex : let n := mkNegotiate 1 (Some [65; 13; 10; 66]) None None in
  valid_negotiate n /\ In 10 [65; 13; 10; 66]
  /\ negotiate_debug (fun _ => false) n =
     text "Negotiate { negotiate_flags: NTLMSSP_NEGOTIATE_UNICODE, domain_name: Some(" ++ [34] ++ text "A\r\nB" ++ [34]
     ++ text "), workstation: None, version: None }".
Proof. exact C80_ex_lem. Qed.

(** * C81: Printing an AUTHENTICATE writes its session key *)
(** Printing does not hide the session key: it is there, in hexadecimal. *)
Theorem C81_key_printed : forall esc a k, valid_authenticate a -> a_exported_key a = Some k ->
  occurs (text "exported_session_key: Some(" ++ hex_of k ++ text ")") (authenticate_debug esc a).
Proof. exact C81_key_printed_lem. Qed.
Print Assumptions C81_key_printed.
(** "Printing a message tells nothing about its session key" is false. *)
Theorem C81_key_hidden_refuted :
  ~ (forall esc a k k', valid_authenticate a -> is_buffer 16 k -> is_buffer 16 k' ->
       authenticate_debug esc (with_exported_key a (Some k)) = authenticate_debug esc (with_exported_key a (Some k'))).
Proof. exact C81_key_hidden_refuted_lem. Qed.
Print Assumptions C81_key_hidden_refuted.
Example C81_ex : valid_authenticate sample_authenticate /\ a_exported_key sample_authenticate = Some (repeat 8 16)
  /\ hex_of (repeat 8 16) = text "08080808080808080808080808080808".
Proof. exact C81_ex_lem. Qed.
