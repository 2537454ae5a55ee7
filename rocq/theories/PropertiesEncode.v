(** Property theorems proved in [FactsEncode.v]; generated by tools/gen.py. *)
From Verif Require Import Base Nom Unicode Wire Structures Messages Spec Lib Encode Decode RoundTrip Parse Samples FactsEncode.

(** * C01: Byte accounting of serialisation *)
(** Serialising into an existing buffer appends bytes and reports how many,
    for every type of the wire format. *)
Theorem C01_byte_accounting : forall cfg,
  (forall f, counts_bytes (flags_ser f))
  /\ (forall f, counts_bytes (field_ser f))
  /\ (forall s, counts_bytes (oem_ser s))
  /\ (forall s, counts_bytes (unicode_ser s))
  /\ (forall v, counts_bytes (version_ser v))
  /\ (forall t, counts_bytes (filetime_ser t))
  /\ (forall h, counts_bytes (single_host_ser h))
  /\ (forall n b, is_buffer n b -> counts_bytes (buf_ser n b))
  /\ (forall s, is_buffer 4 (sg_pad s) -> counts_bytes (signature_ser s))
  /\ (forall i, counts_bytes (av_id_ser i))
  /\ (forall f, counts_bytes (av_flags_ser f))
  /\ (forall a, valid_av_pair a -> counts_bytes (av_pair_ser cfg a))
  /\ (forall l, Forall valid_av_pair l -> counts_bytes (ser_vec (av_pair_ser cfg) l))
  /\ (forall c, valid_lm c -> counts_bytes (lm_challenge_ser c))
  /\ (forall c, valid_nt c -> counts_bytes (nt_challenge_ser cfg c))
  /\ (forall n, valid_negotiate n -> counts_bytes (negotiate_ser n))
  /\ (forall c, valid_challenge c -> counts_bytes (challenge_ser cfg c))
  /\ (forall a, valid_authenticate a -> counts_bytes (authenticate_ser cfg a)).
Proof. exact C01_byte_accounting_lem. Qed.
Print Assumptions C01_byte_accounting.
(** [serialize] returns exactly the bytes written; its debug assertion that
    compares the count with the buffer length never fires. *)
Theorem C01_serialize_returns_bytes : forall cfg s n b,
  counts_bytes s -> s [] = Val (n, b) -> serialize cfg s = Val b /\ n = len b.
Proof. exact C01_serialize_returns_bytes_lem. Qed.
Print Assumptions C01_serialize_returns_bytes.
Example C01_byte_accounting_ex :
  valid_authenticate sample_authenticate
  /\ exists n w', authenticate_ser cfg_debug sample_authenticate [1; 2; 3] = Val (n, w') /\ n = 314 /\ len w' = 317.
Proof. exact C01_byte_accounting_ex_lem. Qed.

(** * C02: NEGOTIATE round trip *)
Theorem C02_negotiate_round_trip : forall cfg n, valid_negotiate n -> carried_negotiate n ->
  exists b, serialize cfg (negotiate_ser n) = Val b /\ negotiate_de cfg b = POk [] n.
Proof. exact C02_negotiate_round_trip_lem. Qed.
Print Assumptions C02_negotiate_round_trip.
Example C02_ex : valid_negotiate sample_negotiate /\ carried_negotiate sample_negotiate.
Proof. exact C02_ex_lem. Qed.

(** * C03: CHALLENGE round trip *)
Theorem C03_challenge_round_trip : forall cfg c, host_le cfg = true ->
  valid_challenge c -> carried_challenge cfg c ->
  exists b, serialize cfg (challenge_ser cfg c) = Val b /\ challenge_de cfg b = POk [] c.
Proof. exact C03_challenge_round_trip_lem. Qed.
Print Assumptions C03_challenge_round_trip.
Example C03_ex : host_le cfg_debug = true
  /\ valid_challenge sample_challenge /\ carried_challenge cfg_debug sample_challenge.
Proof. exact C03_ex_lem. Qed.

(** * C04: AUTHENTICATE round trip *)
(** The exported session key is never on the wire. *)
Theorem C04_authenticate_round_trip : forall cfg a, host_le cfg = true ->
  valid_authenticate a -> carried_authenticate cfg a ->
  exists b, serialize cfg (authenticate_ser cfg a) = Val b
            /\ authenticate_de cfg b = POk [] (with_exported_key a None).
Proof. exact C04_authenticate_round_trip_lem. Qed.
Print Assumptions C04_authenticate_round_trip.
Example C04_ex : host_le cfg_debug = true
  /\ valid_authenticate sample_authenticate /\ carried_authenticate cfg_debug sample_authenticate.
Proof. exact C04_ex_lem. Qed.

(** * C05: AV pair list round trip *)
(** [tail]: bytes that cannot start an AV pair (too few, or an unknown identifier). *)
Theorem C05_av_list_round_trip : forall cfg l tail, host_le cfg = true ->
  Forall valid_av_pair l -> Forall (carried_av cfg) l ->
  Forall (fun a => len (av_value cfg a) <= 65535) l ->
  len tail < 4 \/ 10 < u16_at tail 0 ->
  exists b, serialize cfg (ser_vec (av_pair_ser cfg) l) = Val b
            /\ many0 (av_pair_de cfg) (b ++ tail) = POk tail l.
Proof. exact C05_av_list_round_trip_lem. Qed.
Print Assumptions C05_av_list_round_trip.
Example C05_ex : Forall valid_av_pair sample_infos /\ Forall (carried_av cfg_debug) sample_infos
  /\ Forall (fun a => len (av_value cfg_debug a) <= 65535) sample_infos
  /\ 10 < u16_at [11; 0; 0; 0; 1] 0.
Proof. exact C05_ex_lem. Qed.

(** * C06: Fixed-size structure round trips *)
(** Each structure writes its fixed number of bytes and decodes back from them, whatever follows. *)
Theorem C06_fixed_round_trips : forall cfg rest,
  (forall v, valid_version v -> exists b, serialize cfg (version_ser v) = Val b /\ len b = 8
     /\ version_de (b ++ rest) = if v_revision v =? 15 then POk rest v else PErr EError)
  /\ (forall t, valid_filetime t -> exists b, serialize cfg (filetime_ser t) = Val b /\ len b = 8
     /\ (decodable_time cfg t -> filetime_de cfg (b ++ rest) = POk rest t))
  /\ (forall f, exists b, serialize cfg (av_flags_ser f) = Val b /\ len b = 4
     /\ av_flags_de (b ++ rest) = POk rest f)
  /\ (forall h, valid_single_host h -> exists b, serialize cfg (single_host_ser h) = Val b /\ len b = 48
     /\ single_host_de (b ++ rest) = if sh_z4 h =? 0 then POk rest h else PErr EError)
  /\ (forall s, is_buffer 4 (sg_pad s) -> is_u32 (sg_checksum s) -> is_u32 (sg_seq s) ->
     exists b, serialize cfg (signature_ser s) = Val b /\ len b = 16 /\ signature_de (b ++ rest) = POk rest s)
  /\ (forall f, is_u32 f -> exists b, serialize cfg (flags_ser f) = Val b /\ len b = 4
     /\ flags_de cfg (b ++ rest) = POk rest f)
  /\ (forall n x, is_buffer n x -> exists b, serialize cfg (buf_ser n x) = Val b /\ len b = N.of_nat n
     /\ buf_de n (b ++ rest) = POk rest x).
Proof. exact C06_fixed_round_trips_lem. Qed.
Print Assumptions C06_fixed_round_trips.
Example C06_ex : valid_version sample_version /\ valid_filetime (mkFileTime 4294967295 4294967295)
  /\ decodable_time cfg_debug (mkFileTime 4294967295 4294967295)
  /\ valid_single_host (mkSingleHost 48 0 (repeat 1 8) (repeat 2 32))
  /\ valid_version (mkVersion 1 2 3 14).
Proof. exact C06_ex_lem. Qed.

(** * C11: UTF-16 strings round trip *)
(** The UTF-16 decoder never fails; what it returns is the longest prefix it can carry. *)
Theorem C11_utf16_longest_prefix : forall cfg s, is_string s ->
  exists b, serialize cfg (unicode_ser s) = Val b /\ b = utf16le s
            /\ unicode_de b = POk (utf16le (skipn (length (plain_prefix s)) s)) (plain_prefix s).
Proof. exact C11_utf16_longest_prefix_lem. Qed.
Print Assumptions C11_utf16_longest_prefix.
Example C11_utf16_longest_prefix_ex : is_string str_emoji /\ plain_prefix str_emoji = [65].
Proof. exact C11_utf16_longest_prefix_ex_lem. Qed.
(** Strings of non-NUL BMP characters round trip. *)
Theorem C11_utf16_plain_round_trip : forall cfg s, plain_string s ->
  exists b, serialize cfg (unicode_ser s) = Val b /\ unicode_de b = POk [] s.
Proof. exact C11_utf16_plain_round_trip_lem. Qed.
Print Assumptions C11_utf16_plain_round_trip.
Example C11_utf16_plain_round_trip_ex : plain_string str_accent.
Proof. exact C11_utf16_plain_round_trip_ex_lem. Qed.
Theorem C11_utf16_decode_total : forall b, is_bytes b ->
  exists s rest, unicode_de b = POk rest s /\ plain_string s /\ b = utf16le s ++ rest
    /\ (len rest < 2 \/ u16_at rest 0 = 0 \/ (55296 <= u16_at rest 0 /\ u16_at rest 0 <= 57343)).
Proof. exact C11_utf16_decode_total_lem. Qed.
Print Assumptions C11_utf16_decode_total.
Example C11_utf16_decode_total_ex : is_bytes [65; 0; 61; 216; 0; 222; 66; 0]
  /\ unicode_de [65; 0; 61; 216; 0; 222; 66; 0] = POk [61; 216; 0; 222; 66; 0] [65].
Proof. exact C11_utf16_decode_total_ex_lem. Qed.
(** The full round trip is false: text is lost silently at the first NUL or non-BMP character. *)
Theorem C11_utf16_round_trip_refuted :
  ~ (forall cfg s b, is_string s -> serialize cfg (unicode_ser s) = Val b ->
       exists rest, unicode_de b = POk rest s).
Proof. exact C11_utf16_round_trip_refuted_lem. Qed.
Print Assumptions C11_utf16_round_trip_refuted.

(** * C12: OEM strings are exactly UTF-8 *)
Theorem C12_oem_is_utf8 : forall b,
  (forall s rest, oem_de b = POk rest s <-> rest = [] /\ is_string s /\ utf8 s = b)
  /\ ((forall s, is_string s -> utf8 s <> b) -> oem_de b = PErr EError)
  /\ (forall cfg s, is_string s -> exists e, serialize cfg (oem_ser s) = Val e /\ e = utf8 s /\ oem_de e = POk [] s).
Proof. exact C12_oem_is_utf8_lem. Qed.
Print Assumptions C12_oem_is_utf8.
Example C12_ex : is_string str_emoji /\ utf8 str_emoji = [65; 240; 159; 152; 128; 66]
  /\ oem_de [237; 160; 128] = PErr EError /\ oem_de [192; 128] = PErr EError.
Proof. exact C12_ex_lem. Qed.

(** * C20: Field layout of encoded messages *)
(** Every encoded message: absent fields have the zero descriptor; the present
    ones follow each other without gap from the end of the fixed part (plus
    version and MIC) to the end of the message, and their descriptors say so. *)
Theorem C20_field_layout : forall cfg,
  (forall n b, valid_negotiate n -> serialize cfg (negotiate_ser n) = Val b ->
     laid_out b (match n_version n with Some _ => 40 | None => 32 end)
       [(16, opt_map utf8 (n_domain n)); (24, opt_map utf8 (n_workstation n))])
  /\ (forall c b, valid_challenge c -> serialize cfg (challenge_ser cfg c) = Val b ->
     laid_out b (match ch_version c with Some _ => 56 | None => 48 end)
       [(12, opt_map utf16le (ch_target_name c)); (40, av_list_field cfg (ch_target_infos c))])
  /\ (forall a b, valid_authenticate a -> serialize cfg (authenticate_ser cfg a) = Val b ->
     laid_out b (match a_version a with Some _ => 88 | None => 80 end)
       [(12, opt_map lm_bytes (a_lm a)); (20, opt_map (nt_bytes cfg) (a_nt a));
        (28, opt_map utf16le (a_domain a)); (36, opt_map utf16le (a_user a));
        (44, opt_map utf16le (a_workstation a)); (52, a_session_key a)]).
Proof. exact C20_field_layout_lem. Qed.
Print Assumptions C20_field_layout.
Example C20_ex : exists b, serialize cfg_debug (authenticate_ser cfg_debug sample_authenticate) = Val b
  /\ field_off b 28 = 262 /\ field_data b 28 = utf16le str_Domain.
Proof. exact C20_ex_lem. Qed.

(** * C22: Encoding panics exactly on oversized fields *)
(** A message encodes exactly when every variable field fits 65535 bytes and panics exactly otherwise. *)
Theorem C22_encoding_panics_iff_oversized : forall cfg,
  (forall n, valid_negotiate n ->
     ((exists b, serialize cfg (negotiate_ser n) = Val b) <-> fits (negotiate_fields n))
     /\ ((exists r, serialize cfg (negotiate_ser n) = Panic r) <-> ~ fits (negotiate_fields n)))
  /\ (forall c, valid_challenge c ->
     ((exists b, serialize cfg (challenge_ser cfg c) = Val b) <-> fits (challenge_fields cfg c))
     /\ ((exists r, serialize cfg (challenge_ser cfg c) = Panic r) <-> ~ fits (challenge_fields cfg c)))
  /\ (forall a, valid_authenticate a ->
     ((exists b, serialize cfg (authenticate_ser cfg a) = Val b) <-> fits (authenticate_fields cfg a))
     /\ ((exists r, serialize cfg (authenticate_ser cfg a) = Panic r) <-> ~ fits (authenticate_fields cfg a))).
Proof. exact C22_encoding_panics_iff_oversized_lem. Qed.
Print Assumptions C22_encoding_panics_iff_oversized.
(** What a completed encoding consists of: the message format of MS-NLMP 2.2.1 as Spec.v has it, byte
    for byte (a message without version has no room for one, see C83). *)
Theorem C22_encoding_bytes : forall cfg,
  (forall n b, valid_negotiate n -> serialize cfg (negotiate_ser n) = Val b -> b = negotiate_bytes n)
  /\ (forall c b, valid_challenge c -> serialize cfg (challenge_ser cfg c) = Val b -> b = challenge_bytes cfg c)
  /\ (forall a b, valid_authenticate a -> serialize cfg (authenticate_ser cfg a) = Val b -> b = authenticate_bytes cfg a).
Proof. exact C22_encoding_bytes_lem. Qed.
Print Assumptions C22_encoding_bytes.
Example C22_ex :
  valid_negotiate (mkNegotiate 1 (Some big_string) None None)
  /\ ~ fits (negotiate_fields (mkNegotiate 1 (Some big_string) None None))
  /\ serialize cfg_release (negotiate_ser (mkNegotiate 1 (Some big_string) None None)) = Panic PExpect
  /\ fits (challenge_fields cfg_debug sample_challenge).
Proof. exact C22_ex_lem. Qed.
