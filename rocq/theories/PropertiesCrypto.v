(** Property theorems proved in [FactsCrypto.v]; generated by tools/gen.py. *)
From Verif Require Import Base Nom Unicode Wire Structures Prims Messages Crypto Spec SpecCrypto Lib Encode Decode RoundTrip Parse DesKey Samples FactsEncode RealPrims FactsCrypto.

(** * C27: NTLMv2 response contents *)
(** The constructor [Lmv2Challenge::from_server_challenge], offered beside the client: the same response. *)
Theorem C27_lmv2_from_server_challenge : forall cfg P knt sc cc,
  prims_ok P -> is_buffer 8 sc -> is_buffer 8 cc ->
  lmv2_from_server_challenge P sc knt cc = LmV2 (p_hmac_md5 P knt (sc ++ cc)) cc
  /\ serialize cfg (lm_challenge_ser (lmv2_from_server_challenge P sc knt cc)) = Val (v2_lm_response P knt sc cc).
Proof. exact C27_lmv2_from_server_challenge_lem. Qed.
Print Assumptions C27_lmv2_from_server_challenge.
(** MS-NLMP 4.2.4.2.1 *)
Example C27_lmv2_from_server_challenge_ex :
  serialize cfg_debug (lm_challenge_ser (lmv2_from_server_challenge real_prims [1; 35; 69; 103; 137; 171; 205; 239]
    (NTOWFv2 real_prims [80; 97; 115; 115; 119; 111; 114; 100] [85; 115; 101; 114] str_Domain) (repeat 170 8)))
  = Val ([134; 195; 80; 151; 172; 156; 236; 16; 37; 84; 118; 74; 87; 204; 204; 25] ++ repeat 170 8).
Proof. exact C27_lmv2_from_server_challenge_ex_lem. Qed.

(** * C31: Key exchange key follows MS-NLMP *)
(** [kxkey] computes KXKEY of MS-NLMP 3.4.5.1 if it is given the server
    challenge exactly when EXTENDED_SESSIONSECURITY is negotiated ... *)
Theorem C31_kxkey_function : forall P f sbk lmresp sc lmowf, is_buffer 24 lmresp -> is_buffer 16 lmowf ->
  kxkey P f sbk (sub lmresp 0 8) lmowf (if ESS f then Some sc else None)
  = Val (KXKEY P f sbk lmresp sc lmowf).
Proof. exact C31_kxkey_function_lem. Qed.
Print Assumptions C31_kxkey_function.
Example C31_kxkey_ex : is_buffer 24 (repeat 152 24) /\ is_buffer 16 (repeat 229 16) /\ ESS 524288 = true
  /\ KXKEY real_prims 0 (repeat 1 16) (repeat 152 24) (repeat 2 8) (repeat 229 16) = repeat 1 16
  /\ KXKEY real_prims 4194304 (repeat 1 16) (repeat 152 24) (repeat 2 8) (repeat 229 16) = repeat 229 8 ++ repeat 0 8.
Proof. exact C31_kxkey_ex_lem. Qed.

(** * C32: NTLMv1 responses follow MS-NLMP *)
(** The response functions, for all keys, challenges and flags. *)
Theorem C32_ntlmv1_functions : forall P f knt klm sc cc nolm, prims_ok P -> is_buffer 16 knt ->
  is_buffer 16 klm -> is_buffer 8 sc -> is_buffer 8 cc ->
  ntlmv1_compute_response P f knt klm sc cc nolm
  = Val (v1_lm_response P f knt klm sc cc nolm, v1_nt_response P f knt sc cc, v1_session_base_key P knt).
Proof. exact C32_ntlmv1_functions_lem. Qed.
Print Assumptions C32_ntlmv1_functions.
(** MS-NLMP 4.2.2 and 4.2.3: user "User", password "Password". *)
Example C32_functions_ex :
  let knt := [164; 244; 156; 64; 101; 16; 189; 202; 182; 130; 78; 231; 195; 15; 216; 82] in
  let klm := [229; 44; 172; 103; 65; 154; 154; 34; 74; 59; 16; 143; 63; 166; 203; 109] in
  let sc := [1; 35; 69; 103; 137; 171; 205; 239] in
  is_buffer 16 knt /\ is_buffer 16 klm /\ is_buffer 8 sc /\ is_buffer 8 (repeat 170 8)
  /\ v1_lm_response real_prims 0 knt klm sc (repeat 170 8) false
     = [152; 222; 247; 184; 127; 136; 170; 93; 175; 226; 223; 119; 150; 136; 161; 114; 222; 241; 28; 125; 92; 205; 239; 19]
  /\ v1_nt_response real_prims 0 knt sc (repeat 170 8)
     = [103; 196; 48; 17; 243; 2; 152; 162; 173; 53; 236; 230; 79; 22; 51; 28; 68; 189; 190; 217; 39; 132; 31; 148]
  /\ v1_nt_response real_prims 524288 knt sc (repeat 170 8)
     = [117; 55; 248; 3; 174; 54; 113; 40; 202; 69; 130; 4; 189; 231; 202; 248; 30; 151; 237; 38; 131; 38; 114; 50].
Proof. exact C32_functions_ex_lem. Qed.

(** * C33: DES key expansion preserves the key *)
(** A 7-byte key becomes 8 bytes of odd parity carrying the same 56 bits in order; the expansion is injective. *)
Theorem C33_key_expansion : forall k, is_buffer 7 k ->
  exists k8, des_56bits_to_64bits k = Val k8 /\ is_buffer 8 k8
    /\ Forall (fun x => odd_number (msb_bits x) = true) k8
    /\ flat_map (fun x => firstn 7 (msb_bits x)) k8 = flat_map msb_bits k
    /\ k8 = expand_key k
    /\ forall k', is_buffer 7 k' -> des_56bits_to_64bits k' = Val k8 -> k' = k.
Proof. exact C33_key_expansion_lem. Qed.
Print Assumptions C33_key_expansion.
(** Any other length panics. *)
Theorem C33_wrong_length_panics : forall k, length k <> 7%nat -> des_56bits_to_64bits k = Panic PAssert.
Proof. exact C33_wrong_length_panics_lem. Qed.
Print Assumptions C33_wrong_length_panics.
Example C33_ex : is_buffer 7 [80; 65; 83; 83; 87; 79; 82]
  /\ des_56bits_to_64bits [80; 65; 83; 83; 87; 79; 82] = Val [81; 32; 84; 107; 52; 186; 61; 164].
Proof. exact C33_ex_lem. Qed.

(** * C34: LM hash of ASCII passwords *)
(** The hash of every ASCII password is that of MS-NLMP 3.3.1. *)
Theorem C34_lm_hash : forall P pw, prims_ok P -> is_ascii pw ->
  lmowfv1 P pw = Val (LMOWFv1 P pw).
Proof. exact C34_lm_hash_lem. Qed.
Print Assumptions C34_lm_hash.
(** It depends on nothing but the first 14 characters in upper case; missing ones count as NUL. *)
Theorem C34_lm_hash_weakness : forall P pw pw', prims_ok P -> is_ascii pw -> is_ascii pw' ->
  (forall i, (i < 14)%nat -> upper_ascii (nth i pw 0) = upper_ascii (nth i pw' 0)) ->
  lmowfv1 P pw = lmowfv1 P pw'.
Proof. exact C34_lm_hash_weakness_lem. Qed.
Print Assumptions C34_lm_hash_weakness.
(** "Password" and "pASSword", and "aaaaaaaaaaaaaab" and "AAAAAAAAAAAAAA" *)
Example C34_ex : prims_ok real_prims /\ is_ascii [80; 97; 115; 115; 119; 111; 114; 100]
  /\ lmowfv1 real_prims [80; 97; 115; 115; 119; 111; 114; 100]
     = Val [229; 44; 172; 103; 65; 154; 154; 34; 74; 59; 16; 143; 63; 166; 203; 109]
  /\ (forall i, (i < 14)%nat ->
        upper_ascii (nth i (repeat 97 14 ++ [98]) 0) = upper_ascii (nth i (repeat 65 14) 0)).
Proof. exact C34_ex_lem. Qed.

(** * C36: NT hashes *)
(** On little-endian hosts the hashes are those of MS-NLMP 3.3.1 and 3.3.2. *)
Theorem C36_nt_hashes : forall cfg P pw user dom, host_le cfg = true ->
  ntowfv1 cfg P pw = NTOWFv1 P pw
  /\ ntowfv2 cfg P user (ntowfv1 cfg P pw) dom = NTOWFv2 P pw user dom.
Proof. exact C36_nt_hashes_lem. Qed.
Print Assumptions C36_nt_hashes.
(** The case of ASCII user names does not matter. *)
Theorem C36_user_case : forall cfg P user user' hash dom, prims_ok P -> is_ascii user -> is_ascii user' ->
  map upper_ascii user = map upper_ascii user' ->
  ntowfv2 cfg P user hash dom = ntowfv2 cfg P user' hash dom.
Proof. exact C36_user_case_lem. Qed.
Print Assumptions C36_user_case.
(** Accounts whose upper-cased user name and domain have the same concatenation have the same hash. *)
Theorem C36_concatenation : forall cfg P user user' hash dom dom',
  to_uppercase P user ++ dom = to_uppercase P user' ++ dom' ->
  ntowfv2 cfg P user hash dom = ntowfv2 cfg P user' hash dom'.
Proof. exact C36_concatenation_lem. Qed.
Print Assumptions C36_concatenation.
(** "User", "USER" in "Domain"; "UserDO" in "MAIN" against "User" in "DOMAIN"; "DOMAIN" differs from "Domain". *)
Example C36_ex : prims_ok real_prims /\ is_ascii str_User
  /\ ntowfv2 cfg_debug real_prims str_User (repeat 1 16) str_Domain
     = ntowfv2 cfg_debug real_prims [85; 83; 69; 82] (repeat 1 16) str_Domain
  /\ to_uppercase real_prims (str_User ++ [68; 79]) ++ [77; 65; 73; 78]
     = to_uppercase real_prims str_User ++ [68; 79; 77; 65; 73; 78]
  /\ ntowfv2 cfg_debug real_prims str_User (repeat 1 16) str_Domain
     <> ntowfv2 cfg_debug real_prims str_User (repeat 1 16) [68; 79; 77; 65; 73; 78].
Proof. exact C36_ex_lem. Qed.

(** * C39: FileTime conversions *)
(** From the epoch to the overflow bound: whole seconds are kept, as their number times 10^6. *)
Theorem C39_filetime_conversion : forall cfg t, (0 <= t)%Z -> seconds t * 1000000 < 18446744073709551616 ->
  exists f, filetime_try_from t = inl f /\ valid_filetime f
    /\ ft_as_u64 f = seconds t * 1000000
    /\ (host_time cfg t -> ft_to_system_time cfg f = Some (t - t mod 1000000000)%Z).
Proof. exact C39_filetime_conversion_lem. Qed.
Print Assumptions C39_filetime_conversion.
(** Times before the epoch and beyond the bound are errors. *)
Theorem C39_filetime_errors : forall t,
  ((t < 0)%Z <-> filetime_try_from t = inr FtBeforeEpoch)
  /\ ((0 <= t)%Z /\ 18446744073709551616 <= seconds t * 1000000 <-> filetime_try_from t = inr FtOverflow).
Proof. exact C39_filetime_errors_lem. Qed.
Print Assumptions C39_filetime_errors.
(** Later times never get smaller values. *)
Theorem C39_filetime_monotone : forall t t' f f',
  filetime_try_from t = inl f -> filetime_try_from t' = inl f' -> (t <= t')%Z -> ft_as_u64 f <= ft_as_u64 f'.
Proof. exact C39_filetime_monotone_lem. Qed.
Print Assumptions C39_filetime_monotone.
(** 2020-01-01T00:00:00.5Z *)
Example C39_ex : host_time cfg_windows 1577836800500000000%Z
  /\ seconds 1577836800500000000%Z * 1000000 < 18446744073709551616
  /\ filetime_try_from 1577836800500000000%Z = inl (mkFileTime 3254403072 367368)
  /\ ft_to_system_time cfg_windows (mkFileTime 3254403072 367368) = Some 1577836800000000000%Z
  /\ filetime_try_from (-1)%Z = inr FtBeforeEpoch
  /\ filetime_try_from 18446744073710000000000%Z = inr FtOverflow.
Proof. exact C39_ex_lem. Qed.

(** * C40: FileTime is a Windows FILETIME *)
Theorem C40_windows_filetime_refuted :
  ~ (forall t f, filetime_try_from t = inl f -> Z.of_N (ft_as_u64 f) = windows_filetime t).
Proof. exact C40_windows_filetime_refuted_lem. Qed.
Print Assumptions C40_windows_filetime_refuted.
(** No time at all is converted to the FILETIME of MS-DTYP ... *)
Theorem C40_never_right : forall t f, filetime_try_from t = inl f ->
  (Z.of_N (ft_as_u64 f) < windows_filetime t)%Z.
Proof. exact C40_never_right_lem. Qed.
Print Assumptions C40_never_right.
(** ... and no FILETIME from 1970 on is read as the time it stands for. *)
Theorem C40_never_read_right : forall cfg t f t', (0 <= t)%Z -> valid_filetime f ->
  Z.of_N (ft_as_u64 f) = windows_filetime t -> ft_to_system_time cfg f = Some t' -> (t + 100 * 365 * 86400 * 1000000000 < t')%Z.
Proof. exact C40_never_read_right_lem. Qed.
Print Assumptions C40_never_read_right.
(** 2020-01-01 (FILETIME 132223104000000000) is read as the year 6160. *)
Example C40_ex : valid_filetime (mkFileTime 1761935360 30785590)
  /\ Z.of_N (ft_as_u64 (mkFileTime 1761935360 30785590)) = windows_filetime 1577836800000000000%Z
  /\ ft_to_system_time cfg_debug (mkFileTime 1761935360 30785590) = Some 132223104000000000000%Z
  /\ exists f, filetime_try_from 1577836800000000000%Z = inl f.
Proof. exact C40_ex_lem. Qed.

(** * C50: Wire format independent of the host byte order *)
(** The byte order of the host shows in AV pairs and in the hashes. *)
Theorem C50_byte_order_refuted :
  ~ (forall a, valid_av_pair a -> serialize cfg_release (av_pair_ser cfg_release a)
                                  = serialize cfg_big_endian (av_pair_ser cfg_big_endian a))
  /\ ~ (forall pw, is_string pw -> ntowfv1 cfg_release real_prims pw = ntowfv1 cfg_big_endian real_prims pw).
Proof. exact C50_byte_order_refuted_lem. Qed.
Print Assumptions C50_byte_order_refuted.
(** Every non-empty name of ASCII characters is encoded differently. *)
Theorem C50_every_name_differs : forall cfg cfg' s k, host_le cfg = true -> host_le cfg' = false ->
  In k [AvNbComputerName; AvNbDomainName; AvDnsComputerName; AvDnsDomainName; AvDnsTreeName; AvTargetName] ->
  Forall (fun c => 0 < c < 128) s -> s <> [] -> len (utf16le s) <= 65535 ->
  serialize cfg (av_pair_ser cfg (k s)) <> serialize cfg' (av_pair_ser cfg' (k s)).
Proof. exact C50_every_name_differs_lem. Qed.
Print Assumptions C50_every_name_differs.
(** ... and nothing else depends on the byte order: messages without AV pair names are the same. *)
Theorem C50_rest_same : forall cfg cfg', 
  (forall n, valid_negotiate n -> serialize cfg (negotiate_ser n) = serialize cfg' (negotiate_ser n))
  /\ (forall c, valid_challenge c -> Forall no_text (ch_target_infos c) ->
      serialize cfg (challenge_ser cfg c) = serialize cfg' (challenge_ser cfg' c))
  /\ (forall a, valid_authenticate a ->
      (forall nt, a_nt a = Some (NtV2 nt) -> Forall no_text (nt_target_infos nt)) ->
      serialize cfg (authenticate_ser cfg a) = serialize cfg' (authenticate_ser cfg' a)).
Proof. exact C50_rest_same_lem. Qed.
Print Assumptions C50_rest_same.
Example C50_ex : Forall no_text [AvFlags (mkAvFlags true false false); AvTimestamp (mkFileTime 1 2); AvEOL]
  /\ Forall (fun c => 0 < c < 128) str_Domain
  /\ utf16_host cfg_big_endian str_Domain = [0; 68; 0; 111; 0; 109; 0; 97; 0; 105; 0; 110].
Proof. exact C50_ex_lem. Qed.
