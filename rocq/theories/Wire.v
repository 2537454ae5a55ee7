(** Integers, flags, fields and strings on the wire:
    src/messages/utils.rs, flags.rs, field.rs, unicode_string.rs, and the [Wire]
    trait of src/messages.rs. *)
From Verif Require Import Base Nom Unicode.

(** src/messages.rs:65-70.  [serialize_into(&self, writer)] with a [Vec<u8>]
    writer: from the current content of the vector to the returned count and
    the new content.  Writing to a vector never fails, so the [io::Result]
    layer is dropped; the crate only uses vectors.  Other writers are modelled
    in Writer.v. *)
Definition ser := bytes -> outcome (N * bytes).

(** src/messages.rs:69-76, [Wire::serialize]. *)
Definition serialize (cfg : config) (s : ser) : outcome bytes :=
  let! (size, data) := s [] in
  if debug cfg && negb (size =? len data) then Panic PDebugAssert
  else Val data.

(** [Write::write_all] on a [Vec<u8>].
    src/messages/utils.rs:5. *)
Definition write_all (b : bytes) (w : bytes) : bytes := w ++ b.

(** src/messages/utils.rs:1-9, macro [write_integer!]: [to_le_bytes] of the
    type's width, written in full, returning that width. *)
Definition write_uint (k : nat) (n : N) : ser := fun w =>
  let b := le_enc k n in Val (len b, write_all b w).
(** src/messages/utils.rs:10-13 *)
Definition write_u8 := write_uint 1.
(** src/messages/utils.rs:11 *)
Definition write_u16 := write_uint 2.
(** src/messages/utils.rs:12 *)
Definition write_u32 := write_uint 4.
(** src/messages/utils.rs:13 *)
Definition write_u64 := write_uint 8.

(** [written += a?; written += b?;].
    As at src/messages/field.rs:26-30. *)
Definition seqw (a b : ser) : ser := fun w =>
  let! (n, w1) := a w in
  let! (m, w2) := b w1 in
  Val (n + m, w2).
Notation "a +++ b" := (seqw a b) (at level 60, right associativity).

(** [writer.write_all(b)?; written += n;].
    As at src/messages/challenge.rs:140-141, 150-151. *)
Definition raww (b : bytes) (n : N) : ser := fun w => Val (n, write_all b w).

(** src/messages.rs:83-96, [Vec<T>::serialize_into]. *)
Fixpoint ser_vec {T : Type} (s : T -> ser) (l : list T) : ser := fun w =>
  match l with
  | [] => Val (0, w)
  | x :: r => let! (n, w1) := s x w in
              let! (m, w2) := ser_vec s r w1 in
              Val (n + m, w2)
  end.

(** src/messages.rs:106 [SIGNATURE]: b"NTLMSSP\0" *)
Definition SIGNATURE : bytes := [78; 84; 76; 77; 83; 83; 80; 0].

(** ** Flags: src/messages/flags.rs *)

(** src/messages/flags.rs:18-163: bit numbers *)
Definition NTLMSSP_NEGOTIATE_56 : N := 31.
(** src/messages/flags.rs:23 *)
Definition NTLMSSP_NEGOTIATE_KEY_EXCH : N := 30.
(** src/messages/flags.rs:32 *)
Definition NTLMSSP_NEGOTIATE_128 : N := 29.
(** src/messages/flags.rs:35 *)
Definition R1 : N := 28.
(** src/messages/flags.rs:38 *)
Definition R2 : N := 27.
(** src/messages/flags.rs:41 *)
Definition R3 : N := 26.
(** src/messages/flags.rs:46 *)
Definition NTLMSSP_NEGOTIATE_VERSION : N := 25.
(** src/messages/flags.rs:49 *)
Definition R4 : N := 24.
(** src/messages/flags.rs:53 *)
Definition NTLMSSP_NEGOTIATE_TARGET_INFO : N := 23.
(** src/messages/flags.rs:56 *)
Definition NTLMSSP_REQUEST_NON_NT_SESSION_KEY : N := 22.
(** src/messages/flags.rs:59 *)
Definition R5 : N := 21.
(** src/messages/flags.rs:62 *)
Definition NTLMSSP_NEGOTIATE_IDENTIFY : N := 20.
(** src/messages/flags.rs:72 *)
Definition NTLMSSP_NEGOTIATE_EXTENDED_SESSIONSECURITY : N := 19.
(** src/messages/flags.rs:75 *)
Definition R6 : N := 18.
(** src/messages/flags.rs:81 *)
Definition NTLMSSP_TARGET_TYPE_SERVER : N := 17.
(** src/messages/flags.rs:87 *)
Definition NTLMSSP_TARGET_TYPE_DOMAIN : N := 16.
(** src/messages/flags.rs:95 *)
Definition NTLMSSP_NEGOTIATE_ALWAYS_SIGN : N := 15.
(** src/messages/flags.rs:98 *)
Definition R7 : N := 14.
(** src/messages/flags.rs:103 *)
Definition NTLMSSP_NEGOTIATE_OEM_WORKSTATION_SUPPLIED : N := 13.
(** src/messages/flags.rs:106 *)
Definition NTLMSSP_NEGOTIATE_OEM_DOMAIN_SUPPLIED : N := 12.
(** src/messages/flags.rs:109 *)
Definition NTLMSSP_ANONYMOUS : N := 11.
(** src/messages/flags.rs:112 *)
Definition R8 : N := 10.
(** src/messages/flags.rs:117 *)
Definition NTLMSSP_NEGOTIATE_NTLM : N := 9.
(** src/messages/flags.rs:120 *)
Definition R9 : N := 8.
(** src/messages/flags.rs:129 *)
Definition NTLMSSP_NEGOTIATE_LM_KEY : N := 7.
(** src/messages/flags.rs:134 *)
Definition NTLMSSP_NEGOTIATE_DATAGRAM : N := 6.
(** src/messages/flags.rs:141 *)
Definition NTLMSSP_NEGOTIATE_SEAL : N := 5.
(** src/messages/flags.rs:146 *)
Definition NTLMSSP_NEGOTIATE_SIGN : N := 4.
(** src/messages/flags.rs:149 *)
Definition R10 : N := 3.
(** src/messages/flags.rs:152 *)
Definition NTLMSSP_REQUEST_TARGET : N := 2.
(** src/messages/flags.rs:155 *)
Definition NTLM_NEGOTIATE_OEM : N := 1.
(** src/messages/flags.rs:163 *)
Definition NTLMSSP_NEGOTIATE_UNICODE : N := 0.

(** [struct Flags(pub u32)], src/messages/flags.rs:165-167 *)
Definition flags := N.

(** src/messages/flags.rs:169-173, [Flags::default] *)
Definition flags_default : flags := N.shiftl 1 NTLMSSP_NEGOTIATE_UNICODE.

(** src/messages/flags.rs:192-195, for [bit <= 31] (all uses inside the crate) *)
Definition has_flag (f : flags) (bit : N) : bool :=
  negb (N.land f (N.shiftl 1 bit) =? 0).

(** src/messages/flags.rs:197-200, for [bit <= 31] *)
Definition set_flag (f : flags) (bit : N) : flags :=
  N.lor f (N.shiftl 1 bit).

(** Rust [!x] on [u32].
    src/messages/flags.rs:202-205, src/messages/structures/avid.rs:100. *)
Definition not_u32 (x : N) : N := N.lxor x 4294967295.

(** src/messages/flags.rs:202-205, for [bit <= 31] *)
Definition clear_flag (f : flags) (bit : N) : flags :=
  N.land f (N.land 4294967295 (not_u32 (N.shiftl 1 bit))).

(** The public methods with an arbitrary [u32] bit number: a debug assertion
    (flags.rs:193,198,203), and in release builds a shift by the low five bits
    of the amount. *)
Definition api_bit (cfg : config) (bit : N) : outcome N :=
  if debug cfg then (if bit <=? 31 then Val bit else Panic PDebugAssert)
  else Val (bit mod 32).
(** src/messages/flags.rs:192-195, for any argument *)
Definition api_has_flag (cfg : config) (f : flags) (bit : N) : outcome bool :=
  let! b := api_bit cfg bit in Val (has_flag f b).
(** src/messages/flags.rs:197-200, for any argument *)
Definition api_set_flag (cfg : config) (f : flags) (bit : N) : outcome flags :=
  let! b := api_bit cfg bit in Val (set_flag f b).
(** src/messages/flags.rs:202-205, for any argument *)
Definition api_clear_flag (cfg : config) (f : flags) (bit : N) : outcome flags :=
  let! b := api_bit cfg bit in Val (clear_flag f b).

(** src/messages/flags.rs:207-286, [Flags::validate].  Each test is followed
    by [#[cfg(features = "strict")] return false;].  The configuration
    predicate Cargo sets is [feature = "strict"]; [features] is never set, so
    these statements are compiled in no build: [cfg_features_strict] is false
    whatever the configuration.  The log lines are in Log.v. *)
Definition cfg_features_strict (cfg : config) : bool := false.

(** src/messages/flags.rs:207-286 *)
Definition validate (cfg : config) (f : flags) : bool :=
  if has_flag f R1 && cfg_features_strict cfg then false
  else if has_flag f R2 && cfg_features_strict cfg then false
  else if has_flag f R3 && cfg_features_strict cfg then false
  else if has_flag f R4 && cfg_features_strict cfg then false
  else if has_flag f R5 && cfg_features_strict cfg then false
  else if has_flag f R6 && cfg_features_strict cfg then false
  else if has_flag f R7 && cfg_features_strict cfg then false
  else if has_flag f R8 && cfg_features_strict cfg then false
  else if has_flag f R9 && cfg_features_strict cfg then false
  else if has_flag f R10 && cfg_features_strict cfg then false
  else if (has_flag f NTLMSSP_TARGET_TYPE_DOMAIN && has_flag f NTLMSSP_TARGET_TYPE_SERVER)
          && cfg_features_strict cfg then false
  else if (negb (has_flag f NTLMSSP_NEGOTIATE_UNICODE) && negb (has_flag f NTLM_NEGOTIATE_OEM))
          && cfg_features_strict cfg then false
  else if (has_flag f NTLMSSP_NEGOTIATE_EXTENDED_SESSIONSECURITY
           && has_flag f NTLMSSP_NEGOTIATE_LM_KEY)
          && cfg_features_strict cfg then false
  else true.

(** src/messages/flags.rs:175-189 *)
Definition flags_ser (f : flags) : ser := write_u32 f.
(** src/messages/flags.rs:183-188 *)
Definition flags_de (cfg : config) : parser flags := verify le_u32 (validate cfg).

(** ** Field descriptors: src/messages/field.rs *)

(** src/messages/field.rs:14-19 *)
Record field := mkField { f_len : N; f_max_len : N; f_offset : N }.

(** src/messages/field.rs:21-31 *)
Definition field_ser (f : field) : ser :=
  write_u16 (f_len f) +++ write_u16 (f_max_len f) +++ write_u32 (f_offset f).

(** src/messages/field.rs:33-48 *)
Definition field_de : parser field := fun i =>
  do (r, l) <- le_u16 i;
  do (r, m) <- le_u16 r;
  do (r, o) <- le_u32 r;
  POk r (mkField l m o).

(** src/messages/field.rs:52-56; no overflow with a 64-bit [usize]. *)
Definition get_range (f : field) : N * N :=
  (f_offset f, f_offset f + f_len f).

(** src/messages/field.rs:58-88, [get_data_if].  The result carries no rest
    of the input: the unconsumed part of the field is only logged.  The
    [Result<Option<T>, _>] is a [pres] whose rest is meaningless ([[]]). *)
Definition get_data_if {T : Type} (f : field) (p : parser T) (input : bytes) (c : bool)
  : pres (option T) :=
  if c then
    if f_len f =? 0 then POk [] None
    else
      plift (slice input (fst (get_range f)) (snd (get_range f))) (fun data =>
      do (_rest, value) <- p data;
      POk [] (Some value))
  else POk [] None.

(** src/messages/field.rs:90-119, [get_many_if] *)
Definition get_many_if {T : Type} (f : field) (p : parser T) (input : bytes) (c : bool)
  : pres (list T) :=
  if c then
    if f_len f =? 0 then POk [] []
    else
      plift (slice input (fst (get_range f)) (snd (get_range f))) (fun data =>
      do (_rest, value) <- many0 p data;
      POk [] value)
  else POk [] [].

(** src/messages/field.rs:121-127 *)
Definition field_zeroed : field := mkField 0 0 0.

(** [usize.try_into().expect(..)] into [u32] and [u16].
    src/messages/field.rs:141, 166. *)
Definition to_u32 (n : N) : outcome N :=
  if n <? 4294967296 then Val n else Panic PExpect.
(** src/messages/field.rs:142-146, 167-171 *)
Definition to_u16 (n : N) : outcome N :=
  if n <? 65536 then Val n else Panic PExpect.

(** src/messages/field.rs:156-181, [append]: serialises the value at the end
    of [data] (the payload) and its descriptor at the end of [writer].
    Returns the count of the descriptor, the payload and the writer. *)
Definition append (value : option ser) (data writer : bytes)
  : outcome (N * bytes * bytes) :=
  let! (fld, data') :=
    match value with
    | Some s =>
        let! offset := to_u32 (len data) in
        let! (n, data') := s data in
        let! l := to_u16 n in
        Val (mkField l l offset, data')
    | None => Val (field_zeroed, data)
    end in
  let! (n, writer') := field_ser fld writer in
  Val (n, data', writer').

(** src/messages/field.rs:129-154, [append_many]: same, an empty vector
    yielding the zero descriptor. *)
Definition append_many {T : Type} (s : T -> ser) (values : list T) (data writer : bytes)
  : outcome (N * bytes * bytes) :=
  let! (fld, data') :=
    if is_nil values then Val (field_zeroed, data)
    else
      let! offset := to_u32 (len data) in
      let! (n, data') := ser_vec s values data in
      let! l := to_u16 n in
      Val (mkField l l offset, data')
  in
  let! (n, writer') := field_ser fld writer in
  Val (n, data', writer').

(** ** Strings: src/messages/unicode_string.rs *)

(** src/messages/unicode_string.rs:67-74, [OEMString::serialize_into] *)
Definition oem_ser (s : rstring) : ser := fun w =>
  Val (len (utf8 s), write_all (utf8 s) w).

(** src/messages/unicode_string.rs:76-89, [OEMString::deserialize] *)
Definition oem_de : parser rstring := map_opt prest from_utf8.

(** src/messages/unicode_string.rs:93-102, [UnicodeString::serialize_into] *)
Definition unicode_ser (s : rstring) : ser := ser_vec write_u16 (encode_utf16 s).

(** src/messages/unicode_string.rs:104-128, [UnicodeString::deserialize] *)
Definition unicode_unit (b : N) : option N :=
  if b =? 0 then None else decode_utf16_unit b.
(** src/messages/unicode_string.rs:104-128 *)
Definition unicode_de : parser rstring :=
  fold_many0 (map_opt le_u16 unicode_unit) [] (fun acc c => acc ++ [c]).
