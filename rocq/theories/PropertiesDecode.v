(** Property theorems proved in [FactsDecode.v]; generated by tools/gen.py. *)
From Verif Require Import Base Nom Unicode Wire Structures Messages Spec Lib Encode Decode RoundTrip Parse Samples FactsEncode FactsDecode.

(** * C07: Decoders never panic on untrusted bytes *)
Theorem C07_decoders_never_panic_refuted :
  ~ (forall cfg b w, is_bytes b -> negotiate_de cfg b <> PPanic w)
  /\ ~ (forall cfg b w, is_bytes b -> challenge_de cfg b <> PPanic w)
  /\ ~ (forall cfg b w, is_bytes b -> authenticate_de cfg b <> PPanic w).
Proof. exact C07_decoders_never_panic_refuted_lem. Qed.
Print Assumptions C07_decoders_never_panic_refuted.
(** What remains true: a decoder panics on a field out of range or, in a debug
    build, on an AV pair with bytes left over; loops always terminate. *)
Theorem C07_decoders_panic_reasons : forall cfg b w, is_bytes b ->
  (negotiate_de cfg b = PPanic w -> w = PSlice)
  /\ (challenge_de cfg b = PPanic w -> w = PSlice \/ (w = PDebugAssert /\ debug cfg = true))
  /\ (authenticate_de cfg b = PPanic w -> w = PSlice \/ (w = PDebugAssert /\ debug cfg = true)).
Proof. exact C07_decoders_panic_reasons_lem. Qed.
Print Assumptions C07_decoders_panic_reasons.
Theorem C07_structures : forall cfg b w, is_bytes b ->
  flags_de cfg b <> PPanic w /\ field_de b <> PPanic w /\ version_de b <> PPanic w /\ signature_de b <> PPanic w
  /\ filetime_de cfg b <> PPanic w /\ single_host_de b <> PPanic w /\ (forall n, buf_de n b <> PPanic w)
  /\ oem_de b <> PPanic w /\ unicode_de b <> PPanic w
  /\ av_id_de b <> PPanic w /\ av_flags_de b <> PPanic w /\ lm_challenge_de b <> PPanic w
  /\ (av_pair_de cfg b = PPanic w -> w = PDebugAssert /\ debug cfg = true)
  /\ (many0 (av_pair_de cfg) b = PPanic w -> w = PDebugAssert /\ debug cfg = true)
  /\ (nt_challenge_de cfg b = PPanic w -> w = PDebugAssert /\ debug cfg = true).
Proof. exact C07_structures_lem. Qed.
Print Assumptions C07_structures.
Example C07_structures_ex : is_bytes [1; 0; 3; 0; 65; 0; 0]
  /\ av_pair_de cfg_debug [1; 0; 3; 0; 65; 0; 0] = PPanic PDebugAssert
  /\ nt_challenge_de cfg_debug ([1; 1] ++ repeat 0 26 ++ [1; 0; 3; 0; 65; 0; 0]) = PPanic PDebugAssert.
Proof. exact C07_structures_ex_lem. Qed.

(** * C08: Exactly which NEGOTIATE inputs panic *)
Theorem C08_negotiate_panics_iff : forall cfg b w,
  negotiate_de cfg b = PPanic w <->
  w = PSlice /\ negotiate_header b
  /\ (outside b 16 \/ ((exists d, oem_says b 16 d) /\ outside b 24)).
Proof. exact C08_negotiate_panics_iff_lem. Qed.
Print Assumptions C08_negotiate_panics_iff.
Example C08_ex : negotiate_header bad_negotiate /\ outside bad_negotiate 16
  /\ negotiate_de cfg_release bad_negotiate = PPanic PSlice.
Proof. exact C08_ex_lem. Qed.

(** * C09: Re-encoding a decoded NEGOTIATE is stable *)
(** A decoded NEGOTIATE encodes without panic and decodes to the same message. *)
Theorem C09_reencode_negotiate : forall cfg cfg' b r n, is_bytes b ->
  negotiate_de cfg b = POk r n ->
  exists b', serialize cfg' (negotiate_ser n) = Val b' /\ negotiate_de cfg' b' = POk [] n.
Proof. exact C09_reencode_negotiate_lem. Qed.
Print Assumptions C09_reencode_negotiate.
Example C09_ex : is_bytes (negotiate_bytes sample_negotiate ++ [1; 2; 3])
  /\ negotiate_de cfg_debug (negotiate_bytes sample_negotiate ++ [1; 2; 3]) = POk [] sample_negotiate.
Proof. exact C09_ex_lem. Qed.

(** * C10: Re-encoding a decoded CHALLENGE is stable *)
(** A decoded CHALLENGE encodes without panic; what is decoded from that is the same
    message, except that a present but empty target name becomes an absent one. *)
Theorem C10_reencode_challenge : forall cfg b r c, host_le cfg = true -> is_bytes b ->
  challenge_de cfg b = POk r c ->
  exists b', serialize cfg (challenge_ser cfg c) = Val b'
    /\ challenge_de cfg b' = POk [] (match ch_target_name c with
                                     | Some [] => mkChallenge None (ch_flags c) (ch_server_challenge c)
                                                    (ch_target_infos c) (ch_version c)
                                     | _ => c
                                     end).
Proof. exact C10_reencode_challenge_lem. Qed.
Print Assumptions C10_reencode_challenge.
Example C10_reencode_challenge_ex : exists b c, is_bytes b /\ challenge_de cfg_debug b = POk [] c
  /\ ch_target_infos c = sample_infos /\ ch_target_name c = Some str_Server.
Proof. exact C10_reencode_challenge_ex_lem. Qed.
Theorem C10_reencode_challenge_refuted :
  ~ (forall cfg b r c, host_le cfg = true -> is_bytes b -> challenge_de cfg b = POk r c ->
     exists b', serialize cfg (challenge_ser cfg c) = Val b' /\ challenge_de cfg b' = POk [] c).
Proof. exact C10_reencode_challenge_refuted_lem. Qed.
Print Assumptions C10_reencode_challenge_refuted.

(** * C19: Accepted target info lists end with EOL *)
Theorem C19_target_infos_end_with_eol : forall cfg b r c,
  challenge_de cfg b = POk r c ->
  ch_target_infos c = [] \/ exists l, ch_target_infos c = l ++ [AvEOL].
Proof. exact C19_target_infos_end_with_eol_lem. Qed.
Print Assumptions C19_target_infos_end_with_eol.
Example C19_ex : exists b c, challenge_de cfg_debug b = POk [] c /\ length (ch_target_infos c) = 7%nat.
Proof. exact C19_ex_lem. Qed.

(** * C21: Messages of one type are never accepted as another *)
Theorem C21_message_types : forall cfg b,
  (forall r n, negotiate_de cfg b = POk r n -> is_message 1 b)
  /\ (forall r c, challenge_de cfg b = POk r c -> is_message 2 b)
  /\ (forall r a, authenticate_de cfg b = POk r a -> is_message 3 b).
Proof. exact C21_message_types_lem. Qed.
Print Assumptions C21_message_types.
(** A message of another type is rejected with an error, never accepted, never a panic. *)
Theorem C21_types_exclusive : forall cfg b ty, is_message ty b ->
  (ty <> 1 -> negotiate_de cfg b = PErr EError)
  /\ (ty <> 2 -> challenge_de cfg b = PErr EError)
  /\ (ty <> 3 -> authenticate_de cfg b = PErr EError).
Proof. exact C21_types_exclusive_lem. Qed.
Print Assumptions C21_types_exclusive.
Theorem C21_encoded_types : forall cfg b,
  (forall n, valid_negotiate n -> serialize cfg (negotiate_ser n) = Val b -> is_message 1 b)
  /\ (forall c, valid_challenge c -> serialize cfg (challenge_ser cfg c) = Val b -> is_message 2 b)
  /\ (forall a, valid_authenticate a -> serialize cfg (authenticate_ser cfg a) = Val b -> is_message 3 b).
Proof. exact C21_encoded_types_lem. Qed.
Print Assumptions C21_encoded_types.
Example C21_ex : exists b, serialize cfg_debug (challenge_ser cfg_debug sample_challenge) = Val b
  /\ is_message 2 b /\ negotiate_de cfg_debug b = PErr EError.
Proof. exact C21_ex_lem. Qed.

(** * C41: Lenient parts of AUTHENTICATE decoding *)
Theorem C41_lenient_authenticate : forall cfg b r a, is_bytes b -> authenticate_de cfg b = POk r a ->
  (forall x, a_lm a = Some (LmV1 x) -> N.testbit (a_flags a) 9 = true)
  /\ (forall x y, a_lm a = Some (LmV2 x y) -> N.testbit (a_flags a) 9 = false)
  /\ (a_lm a = None <-> field_len b 12 < 24)
  /\ (forall k, a_session_key a = Some k -> N.testbit (a_flags a) 30 = true)
  /\ (N.testbit (a_flags a) 30 = false -> a_session_key a = None)
  /\ a_exported_key a = None.
Proof. exact C41_lenient_authenticate_lem. Qed.
Print Assumptions C41_lenient_authenticate.
Example C41_ex : is_bytes short_lm /\ exists a, authenticate_de cfg_debug short_lm = POk [] a
  /\ a_lm a = None /\ a_session_key a = None.
Proof. exact C41_ex_lem. Qed.

(** * C43: Trailing bytes do not change what is decoded *)
(** Appending bytes to an accepted message changes nothing. *)
Theorem C43_trailing_bytes : forall cfg b t, is_bytes b -> is_bytes t ->
  (forall n, negotiate_de cfg b = POk [] n -> negotiate_de cfg (b ++ t) = POk [] n)
  /\ (forall c, challenge_de cfg b = POk [] c -> challenge_de cfg (b ++ t) = POk [] c)
  /\ (forall a, authenticate_de cfg b = POk [] a -> authenticate_de cfg (b ++ t) = POk [] a).
Proof. exact C43_trailing_bytes_lem. Qed.
Print Assumptions C43_trailing_bytes.
Example C43_ex : is_bytes (challenge_bytes cfg_debug sample_challenge)
  /\ challenge_de cfg_debug (challenge_bytes cfg_debug sample_challenge) = POk [] sample_challenge.
Proof. exact C43_ex_lem. Qed.

(** * C44: Short inputs are errors, not panics *)
Theorem C44_short_inputs : forall cfg b,
  (len b < 32 -> negotiate_de cfg b = PErr EError)
  /\ (len b < 48 -> challenge_de cfg b = PErr EError)
  /\ (len b < 80 -> authenticate_de cfg b = PErr EError).
Proof. exact C44_short_inputs_lem. Qed.
Print Assumptions C44_short_inputs.
(** The bounds are exact. *)
Example C44_ex :
  (exists n, negotiate_de cfg_debug (NTLMSSP ++ le32 1 ++ le32 1 ++ repeat 0 16) = POk [] n)
  /\ negotiate_de cfg_debug (NTLMSSP ++ le32 1 ++ le32 1 ++ repeat 0 15) = PErr EError
  /\ (exists n, challenge_de cfg_debug (NTLMSSP ++ le32 2 ++ repeat 0 36) = POk [] n)
  /\ (exists n, authenticate_de cfg_debug (NTLMSSP ++ le32 3 ++ repeat 0 68) = POk [] n).
Proof. exact C44_ex_lem. Qed.

(** * C45: Version conversions *)
Theorem C45_version_try_from : forall b, length b = 8%nat ->
  version_try_from b =
  Val (if (byte_at b 4 =? 0) && (byte_at b 5 =? 0) && (byte_at b 6 =? 0) && (byte_at b 7 =? 15)
       then Some (mkVersion (byte_at b 0) (byte_at b 1) (u16_at b 2) 15) else None).
Proof. exact C45_version_try_from_lem. Qed.
Print Assumptions C45_version_try_from.
Theorem C45_version_from_round_trip : forall cfg major minor build,
  is_u8 major -> is_u8 minor -> is_u16 build ->
  let b := [major; minor; build mod 256; build / 256; 0; 0; 0; 15] in
  serialize cfg (version_ser (version_from major minor build)) = Val b
  /\ version_try_from b = Val (Some (mkVersion major minor build 15)).
Proof. exact C45_version_from_round_trip_lem. Qed.
Print Assumptions C45_version_from_round_trip.
Example C45_ex : version_try_from [10; 0; 99; 69; 0; 0; 0; 15] = Val (Some sample_version)
  /\ version_try_from [10; 0; 99; 69; 0; 0; 0; 14] = Val None
  /\ version_try_from [10; 0; 99; 69; 1; 0; 0; 15] = Val None.
Proof. exact C45_ex_lem. Qed.

(** * C48: Exactly which CHALLENGE inputs panic *)
Theorem C48_challenge_panics_iff : forall cfg b w, is_bytes b ->
  (challenge_de cfg b = PPanic w <->
   challenge_header cfg b
   /\ ((w = PSlice /\ (outside b 12 \/ outside b 40))
       \/ (w = PDebugAssert /\ ~ outside b 12 /\ ~ outside b 40 /\ field_len b 40 <> 0
           /\ av_walk cfg (field_data b 40) WPanic))).
Proof. exact C48_challenge_panics_iff_lem. Qed.
Print Assumptions C48_challenge_panics_iff.
(** In a release build only the ranges matter. *)
Theorem C48_challenge_panics_release : forall cfg b, is_bytes b -> debug cfg = false ->
  ((exists w, challenge_de cfg b = PPanic w) <-> challenge_header cfg b /\ (outside b 12 \/ outside b 40)).
Proof. exact C48_challenge_panics_release_lem. Qed.
Print Assumptions C48_challenge_panics_release.
Example C48_ex : is_bytes bad_challenge /\ challenge_header cfg_debug bad_challenge
  /\ challenge_de cfg_debug bad_challenge = PPanic PDebugAssert
  /\ av_walk cfg_debug (field_data bad_challenge 40) WPanic
  /\ challenge_de cfg_release bad_challenge = PErr EError.
Proof. exact C48_ex_lem. Qed.

(** * C49: Exactly which AUTHENTICATE inputs panic *)
Theorem C49_authenticate_panics_iff : forall cfg b w, is_bytes b ->
  (authenticate_de cfg b = PPanic w <->
   authenticate_header b
   /\ ((w = PSlice /\ (outside b 12 \/ outside b 20
          \/ ((exists v, nt_says cfg b 20 v)
              /\ (outside b 28 \/ outside b 36 \/ outside b 44
                  \/ (N.testbit (u32_at b 60) 30 = true /\ outside b 52)))))
       \/ (w = PDebugAssert /\ ~ outside b 12 /\ ~ outside b 20 /\ field_len b 20 <> 0
           /\ nt_read cfg (field_data b 20) NtPanic))).
Proof. exact C49_authenticate_panics_iff_lem. Qed.
Print Assumptions C49_authenticate_panics_iff.
Example C49_ex : is_bytes (bad_authenticate 1073741825)
  /\ authenticate_header (bad_authenticate 1073741825)
  /\ authenticate_de cfg_release (bad_authenticate 1073741825) = PPanic PSlice
  /\ nt_says cfg_release (bad_authenticate 1073741825) 20 None
  /\ outside (bad_authenticate 1073741825) 52
  /\ exists a, authenticate_de cfg_release (bad_authenticate 1) = POk [] a.
Proof. exact C49_ex_lem. Qed.

(** * C53: Content of decoded messages *)
(** What the decoders accept, and the message they return, read off the bytes by offset. *)
Theorem C53_decoded_negotiate : forall cfg b r n,
  negotiate_de cfg b = POk r n <-> r = [] /\ negotiate_says b n.
Proof. exact C53_decoded_negotiate_lem. Qed.
Print Assumptions C53_decoded_negotiate.
Theorem C53_decoded_challenge : forall cfg b r c, is_bytes b ->
  (challenge_de cfg b = POk r c <-> r = [] /\ challenge_says cfg b c).
Proof. exact C53_decoded_challenge_lem. Qed.
Print Assumptions C53_decoded_challenge.
Theorem C53_decoded_authenticate : forall cfg b r a, is_bytes b ->
  (authenticate_de cfg b = POk r a <-> r = [] /\ authenticate_says cfg b a).
Proof. exact C53_decoded_authenticate_lem. Qed.
Print Assumptions C53_decoded_authenticate.
Example C53_ex :
  negotiate_says overlapping_negotiate (mkNegotiate 1 (Some [78; 84; 76; 77; 83; 83; 80]) (Some [77; 83; 83; 80]) None)
  /\ (is_bytes (challenge_bytes cfg_debug sample_challenge)
      /\ challenge_says cfg_debug (challenge_bytes cfg_debug sample_challenge) sample_challenge)
  /\ (is_bytes (authenticate_bytes cfg_debug sample_authenticate)
      /\ exists a, authenticate_says cfg_debug (authenticate_bytes cfg_debug sample_authenticate) a).
Proof. exact C53_ex_lem. Qed.

(** * C54: Re-encoding a decoded AUTHENTICATE is stable *)
(** A decoded AUTHENTICATE encodes without panic; what is decoded from that is the same
    message, except that present but empty names become absent. *)
Theorem C54_reencode_authenticate : forall cfg b r a, host_le cfg = true -> is_bytes b ->
  authenticate_de cfg b = POk r a ->
  exists b', serialize cfg (authenticate_ser cfg a) = Val b'
    /\ authenticate_de cfg b' = POk [] (mkAuthenticate (a_lm a) (a_nt a) (no_empty (a_domain a))
         (no_empty (a_user a)) (no_empty (a_workstation a)) (a_session_key a) (a_flags a)
         (a_version a) (a_mic a) (a_exported_key a)).
Proof. exact C54_reencode_authenticate_lem. Qed.
Print Assumptions C54_reencode_authenticate.
Example C54_ex : exists b a, is_bytes b /\ authenticate_de cfg_debug b = POk [] a
  /\ a_user a = Some str_User /\ a_nt a = Some (NtV2 sample_ntv2).
Proof. exact C54_ex_lem. Qed.

(** * C55: Release builds accept whatever debug builds accept *)
Theorem C55_release_accepts_debug : forall cfg b, is_bytes b ->
  (forall r n, negotiate_de cfg b = POk r n -> negotiate_de (release cfg) b = POk r n)
  /\ (forall r c, challenge_de cfg b = POk r c -> challenge_de (release cfg) b = POk r c)
  /\ (forall r a, authenticate_de cfg b = POk r a -> authenticate_de (release cfg) b = POk r a).
Proof. exact C55_release_accepts_debug_lem. Qed.
Print Assumptions C55_release_accepts_debug.
Example C55_ex : release cfg_debug = cfg_release
  /\ challenge_de cfg_debug (challenge_bytes cfg_debug sample_challenge) = POk [] sample_challenge.
Proof. exact C55_ex_lem. Qed.
