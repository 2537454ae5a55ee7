(** Property theorems proved in [FactsPretty.v]; generated by tools/gen.py. *)
From Coq Require Import ZifyBool ZifyNat ZifyN Ascii String.
From Verif Require Import Base Nom Unicode Wire Structures Prims Messages Crypto Client Debug Log Print Pretty Spec SpecDebug SpecLog SpecPrint SpecPretty
  Lib Samples FactsDebug FactsLog FactsPrint FactsPretty.

(** * C90: Messages printed over several lines *)
(** Every line is indented by its depth; nothing in a message adds a line or moves one. *)
Theorem C90_layout : forall esc,
  (forall n, negotiate_pretty esc n = join_lines (map indented (layout 0 [] [] (negotiate_calls esc n))))
  /\ (forall c, challenge_pretty esc c = join_lines (map indented (layout 0 [] [] (challenge_calls esc c))))
  /\ (forall a, authenticate_pretty esc a = join_lines (map indented (layout 0 [] [] (authenticate_calls esc a))))
  /\ (forall s, client_state_pretty esc s = join_lines (map indented (layout 0 [] [] (client_state_calls esc s)))).
Proof. exact C90_layout_lem. Qed.
Print Assumptions C90_layout.
(** Taking the line breaks out gives the form [{:?}]. *)
Theorem C90_unbroken : forall esc,
  (forall n, unbroken (negotiate_pretty esc n) = negotiate_debug esc n)
  /\ (forall c, unbroken (challenge_pretty esc c) = challenge_debug esc c)
  /\ (forall a, unbroken (authenticate_pretty esc a) = authenticate_debug esc a)
  /\ (forall s, unbroken (client_state_pretty esc s) = client_state_debug esc s).
Proof. exact C90_unbroken_lem. Qed.
Print Assumptions C90_unbroken.
Theorem C90_structures_unbroken : forall esc,
  (forall x, unbroken (pretty (version_calls x)) = version_debug x)
  /\ (forall x, unbroken (pretty (field_calls x)) = field_debug x)
  /\ (forall x, unbroken (pretty (filetime_calls x)) = filetime_debug x)
  /\ (forall x, unbroken (pretty (single_host_calls x)) = single_host_debug x)
  /\ (forall x, unbroken (pretty (signature_calls x)) = signature_debug x)
  /\ (forall x, unbroken (pretty (av_flags_calls x)) = av_flags_debug x)
  /\ (forall x, unbroken (pretty (av_pair_calls esc x)) = av_pair_debug esc x)
  /\ (forall x, unbroken (pretty (lm_challenge_calls x)) = lm_challenge_debug x)
  /\ (forall x, unbroken (pretty (nt_challenge_calls esc x)) = nt_challenge_debug esc x).
Proof. exact C90_structures_unbroken_lem. Qed.
Print Assumptions C90_structures_unbroken.
(** Messages printed alike are equal. *)
Theorem C90_told_apart : forall esc,
  (forall m n, valid_negotiate m -> valid_negotiate n -> negotiate_pretty esc m = negotiate_pretty esc n -> m = n)
  /\ (forall b c, valid_challenge b -> valid_challenge c -> challenge_pretty esc b = challenge_pretty esc c -> b = c)
  /\ (forall a b, valid_authenticate a -> valid_authenticate b -> authenticate_pretty esc a = authenticate_pretty esc b -> a = b)
  /\ (forall s t, valid_state s -> valid_state t -> client_state_pretty esc s = client_state_pretty esc t -> s = t).
Proof. exact C90_told_apart_lem. Qed.
Print Assumptions C90_told_apart.
(** The number of lines of a NEGOTIATE: six, two more for each name and seven more for a version. *)
Theorem C90_negotiate_lines : forall esc n, length (split_lines (negotiate_pretty esc n))
  = (6 + (if n_domain n then 2 else 0) + (if n_workstation n then 2 else 0) + (if n_version n then 7 else 0))%nat.
Proof. exact C90_negotiate_lines_lem. Qed.
Print Assumptions C90_negotiate_lines.
(** Whatever stands in the place of the strings of a message: it has as many lines, and they are
    indented the same way. *)
Theorem C90_strings : forall esc f,
  (forall n, map margin (split_lines (negotiate_pretty esc (negotiate_with_strings f n))) = map margin (split_lines (negotiate_pretty esc n)))
  /\ (forall c, map margin (split_lines (challenge_pretty esc (challenge_with_strings f c))) = map margin (split_lines (challenge_pretty esc c)))
  /\ (forall a, map margin (split_lines (authenticate_pretty esc (authenticate_with_strings f a)))
                = map margin (split_lines (authenticate_pretty esc a))).
Proof. exact C90_strings_lem. Qed.
Print Assumptions C90_strings.
Example C90_ex : let n := mkNegotiate 33554433 (Some [68; 10; 125]) None (Some (mkVersion 10 0 17763 15)) in
  valid_negotiate n
  /\ map (fun l => (N.of_nat (length l - length (without_indent l)), without_indent l))
       (split_lines (negotiate_pretty (fun _ => false) n))
     = [(0, text "Negotiate {");
        (4, text "negotiate_flags: NTLMSSP_NEGOTIATE_VERSION|NTLMSSP_NEGOTIATE_UNICODE,");
        (4, text "domain_name: Some(");
        (8, [34] ++ text "D\n}" ++ [34] ++ text ",");
        (4, text "),");
        (4, text "workstation: None,");
        (4, text "version: Some(");
        (8, text "Version {");
        (12, text "major: 10,"); (12, text "minor: 0,"); (12, text "build: 17763,"); (12, text "revision_count: 15,");
        (8, text "},");
        (4, text "),");
        (0, text "}")].
Proof. exact C90_ex_lem. Qed.
