(** Property theorems proved in [FactsErrors.v]; generated by tools/gen.py. *)
From Coq Require Import Ascii String.
From Verif Require Import Base Nom Unicode Wire Structures Messages Errors Spec SpecErrors Lib Decode Parse
  ErrorsLib Report Samples FactsErrors.

(** * C69: The error type chosen by the caller has no influence *)
(** Whatever the error type, a decoder gives the results of the model without error content. *)
Theorem C69_decoders_erase : forall cfg A p q, decoder cfg A p q ->
  forall T b, erase (p T b) = q b.
Proof. exact C69_decoders_erase_lem. Qed.
Print Assumptions C69_decoders_erase.
(** Two error types: same value and rest, or both fail, or both ask for the same number of bytes, or both panic. *)
Theorem C69_error_type : forall cfg A p q, decoder cfg A p q ->
  forall T T' b,
    (forall r a, p T b = XOk r a <-> p T' b = XOk r a)
    /\ ((exists e, p T b = XErr e) <-> (exists e, p T' b = XErr e))
    /\ (forall n, p T b = XIncomplete n <-> p T' b = XIncomplete n)
    /\ (forall w, p T b = XPanic w <-> p T' b = XPanic w).
Proof. exact C69_error_type_lem. Qed.
Print Assumptions C69_error_type.
Example C69_ex : 
  (exists a, x_authenticate unit_error cfg_debug (authenticate_bytes cfg_debug sample_authenticate) = XOk [] a)
  /\ (exists e, x_authenticate unit_error cfg_debug (firstn 70 (authenticate_bytes cfg_debug sample_authenticate)) = XErr e).
Proof. exact C69_ex_lem. Qed.

(** * C70: Error locations lie inside the input *)
(** Every location in a verbose error is a part of the decoder's input, and the first entry says what failed. *)
Theorem C70_locations : forall cfg A p q, decoder cfg A p q -> forall b e,
  p verbose_error b = XErr e ->
  Forall (fun x => within b (fst x)) e /\ exists s k l, e = (s, Nom k) :: l.
Proof. exact C70_locations_lem. Qed.
Print Assumptions C70_locations.
(** A caller who uses nom's plain [Error] sees the first entry of the verbose report. *)
Theorem C70_plain_error : forall cfg A p q, decoder cfg A p q -> forall b s k,
  p plain_error b = XErr (s, k) <-> exists l, p verbose_error b = XErr ((s, Nom k) :: l).
Proof. exact C70_plain_error_lem. Qed.
Print Assumptions C70_plain_error.
Example C70_ex : let b := firstn 30 (negotiate_bytes sample_negotiate) in
  x_negotiate verbose_error cfg_debug b =
    XErr [(skipn 28 b, Nom KEof); (skipn 24 b, Context "Field"); (skipn 24 b, Context "workstation_field");
          (b, Context "Negotiate")]
  /\ x_negotiate plain_error cfg_debug b = XErr (skipn 28 b, KEof).
Proof. exact C70_ex_lem. Qed.

(** * C71: What the report of a rejected NEGOTIATE says *)
Theorem C71_negotiate_error : forall cfg b e, is_bytes b ->
  (x_negotiate verbose_error cfg b = XErr e <-> negotiate_report b e).
Proof. exact C71_negotiate_error_lem. Qed.
Print Assumptions C71_negotiate_error.
Theorem C71_fixed_part : forall b, is_bytes b ->
  (report b (negotiate_checks b) = None <-> negotiate_header b).
Proof. exact C71_fixed_part_lem. Qed.
Print Assumptions C71_fixed_part.
(** Examples: a wrong revision in the version; a domain that is not UTF-8; target information that does not end;
    an NT response of 20 bytes; a session key of 15 bytes. *)
Example C71_ex : 
  let b := firstn 39 (negotiate_bytes sample_negotiate) ++ [16] ++ skipn 40 (negotiate_bytes sample_negotiate) in
  let c := firstn 40 (negotiate_bytes sample_negotiate) ++ [255] ++ skipn 41 (negotiate_bytes sample_negotiate) in
  is_bytes b /\ is_bytes c
  /\ x_negotiate verbose_error cfg_debug b =
       XErr [(skipn 39 b, Nom KVerify); (skipn 39 b, Context "revision_count"); (skipn 32 b, Context "Version");
             (skipn 32 b, Context "Negotiate/version")]
  /\ x_negotiate verbose_error cfg_debug c =
       XErr (field_report c 16 [Nom KMapOpt; Context "OEM string"; Context "Field::get_data"; Context "domain"]).
Proof. exact C71_ex_lem. Qed.

(** * C72: What the report of a rejected CHALLENGE says *)
Theorem C72_challenge_error : forall cfg b e, is_bytes b ->
  (x_challenge verbose_error cfg b = XErr e <-> challenge_report cfg b e).
Proof. exact C72_challenge_error_lem. Qed.
Print Assumptions C72_challenge_error.
Theorem C72_fixed_part : forall cfg b, is_bytes b ->
  (report b (challenge_checks cfg b) = None <-> challenge_header cfg b).
Proof. exact C72_fixed_part_lem. Qed.
Print Assumptions C72_fixed_part.
Example C72_ex :
  let m := challenge_bytes cfg_debug (mkChallenge (Some str_Server) 1619624453 [1; 35; 69; 103; 137; 171; 205; 239]
             [AvNbDomainName str_Domain; AvNbComputerName str_accent] None) in
  let b := firstn 44 m in
  is_bytes m
  /\ x_challenge verbose_error cfg_debug m =
       XErr (field_report m 40 [Nom KVerify; Context "Challenge/TargetInfos/EOL"])
  /\ x_challenge verbose_error cfg_debug b =
       XErr [(skipn 44 b, Nom KEof); (skipn 40 b, Context "Field"); (skipn 40 b, Context "target_infos_field");
             (b, Context "Challenge")].
Proof. exact C72_ex_lem. Qed.

(** * C73: What the report of a rejected AUTHENTICATE says *)
Theorem C73_authenticate_error : forall cfg b e, is_bytes b ->
  (x_authenticate verbose_error cfg b = XErr e <-> authenticate_report cfg b e).
Proof. exact C73_authenticate_error_lem. Qed.
Print Assumptions C73_authenticate_error.
Theorem C73_fixed_part : forall b, is_bytes b ->
  (report b (authenticate_checks b) = None <-> authenticate_header b).
Proof. exact C73_fixed_part_lem. Qed.
Print Assumptions C73_fixed_part.
Example C73_ex :
  let m k := authenticate_bytes cfg_debug (mkAuthenticate None (Some (NtV1 (repeat 4 k)))
      (Some str_Domain) (Some str_User) None (Some (repeat 9 15))
      1107296257 (Some sample_version) (repeat 5 16) None) in
  is_bytes (m 20%nat) /\ is_bytes (m 24%nat)
  /\ x_authenticate verbose_error cfg_debug (m 20%nat) =
       XErr (field_report (m 20%nat) 20
         [Nom KEof; Context "response"; Context "Ntv1Challenge"; Nom KAlt; Context "Field::get_data";
          Context "nt_challenge_response"])
  /\ x_authenticate verbose_error cfg_debug (m 24%nat) =
       XErr (field_report (m 24%nat) 52
         [Nom KEof; Context "encrypted_random_session_key"; Context "Field::get_data";
          Context "encrypted_random_session_key"]).
Proof. exact C73_ex_lem. Qed.

(** * C74: What the reports of rejected structures say *)
(** Structures of fixed layout *)
Theorem C74_fixed_structures : forall cfg b e, is_bytes b ->
  (x_flags verbose_error cfg b = XErr e <-> report b (flags_checks 0) = Some e)
  /\ (x_field verbose_error b = XErr e <-> report b (field_checks 0) = Some e)
  /\ (x_version verbose_error b = XErr e <-> report b (version_checks 0) = Some e)
  /\ (x_filetime verbose_error cfg b = XErr e <-> report b (filetime_checks cfg 0) = Some e)
  /\ (x_single_host verbose_error b = XErr e <-> report b single_host_checks = Some e)
  /\ (x_signature verbose_error b = XErr e <-> report b signature_checks = Some e)
  /\ (x_lmv1 verbose_error b = XErr e <-> report b lmv1_checks = Some e)
  /\ (x_lmv2 verbose_error b = XErr e <-> report b lmv2_checks = Some e)
  /\ (x_ntv1 verbose_error b = XErr e <-> report b ntv1_checks = Some e)
  /\ (x_ntv2 verbose_error cfg b = XErr e <-> report b (ntv2_checks cfg) = Some e).
Proof. exact C74_fixed_structures_lem. Qed.
Print Assumptions C74_fixed_structures.
(** AV pairs *)
Theorem C74_av_pair : forall cfg b e, is_bytes b ->
  (x_av_pair verbose_error cfg b = XErr e <-> av_report cfg b = Some e).
Proof. exact C74_av_pair_lem. Qed.
Print Assumptions C74_av_pair.
(** Responses: whichever form was meant, a failure is reported as a short NTLMv1 response. *)
Theorem C74_responses : forall cfg b e, is_bytes b ->
  (x_nt_challenge verbose_error cfg b = XErr e <->
   len b < 24 /\ e = [(b, Nom KEof); (b, Context "response"); (b, Context "Ntv1Challenge"); (b, Nom KAlt)])
  /\ (x_lm_challenge verbose_error b = XErr e <->
   len b < 24 /\ e = [(b, Nom KEof); (b, Context "response"); (b, Context "Lmv1Challenge"); (b, Nom KAlt)]).
Proof. exact C74_responses_lem. Qed.
Print Assumptions C74_responses.
(** Strings read as UTF-16 and lists of AV pairs never report an error. *)
Theorem C74_never : forall cfg b e, is_bytes b ->
  x_unicode verbose_error b <> XErr e
  /\ x_many0 verbose_error (x_av_pair verbose_error cfg) b <> XErr e.
Proof. exact C74_never_lem. Qed.
Print Assumptions C74_never.
Example C74_ex :
  (* identifier 11, a timestamp of 7 bytes, flags with an unknown bit *)
  x_av_pair verbose_error cfg_debug [11; 0; 0; 0]
    = XErr [([11; 0; 0; 0], Nom KMapOpt); ([11; 0; 0; 0], Context "AvId"); ([11; 0; 0; 0], Context "AvPair")]
  /\ x_av_pair verbose_error cfg_debug [7; 0; 7; 0; 1; 2; 3; 4; 5; 6; 7; 99]
    = XErr [([5; 6; 7], Nom KEof); ([1; 2; 3; 4; 5; 6; 7], Context "FileTime")]
  /\ x_av_pair verbose_error cfg_debug [6; 0; 4; 0; 8; 0; 0; 0]
    = XErr [([8; 0; 0; 0], Nom KVerify); ([8; 0; 0; 0], Context "MsvAvFlags")]
  /\ x_ntv2 verbose_error cfg_debug (repeat 1 30)
    = XErr [(repeat 1 28, Nom KVerify); (repeat 1 28, Context "Reserved1"); (repeat 1 30, Context "Ntv2Challenge")]
  /\ x_nt_challenge verbose_error cfg_debug (repeat 1 30) = XOk (repeat 1 6) (NtV1 (repeat 1 24)).
Proof. exact C74_ex_lem. Qed.
