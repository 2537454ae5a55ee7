(** The encoders once more, counting their work, for vectors ([Wire::serialize]
    and the payload that messages collect).

    One unit is paid for every call of [write_all], [write] or
    [extend_from_slice], one for every byte it is given, one for every turn of
    a loop over a vector, one for every UTF-16 unit collected, one for every
    zero [resize] puts, and one for every byte a hash is computed of.  What is
    done per unit takes constant (amortised) time: the vectors grow by doubling.
    Not counted: log messages (Log.v) and the clones the client makes. *)
From Verif Require Import Base Nom Unicode Wire Structures Prims Messages.

(** A call of [serialize_into], src/messages.rs:66-68, with its work *)
Definition counted (A : Type) := (N * outcome A)%type.
(** One statement after another, e.g. src/messages/field.rs:26-30 *)
Definition ebind {A B : Type} (x : counted A) (k : A -> counted B) : counted B :=
  match snd x with
  | Val a => let y := k a in (fst x + fst y, snd y)
  | Panic w => (fst x, Panic w)
  end.
Notation "'effort!' x ':=' e 'in' k" := (ebind e (fun x => k))
  (at level 200, x pattern, right associativity).
(** Results that cost nothing more, and [n] units before [x].
    As at src/messages/field.rs:30. *)
Definition at_once {A : Type} (r : outcome A) : counted A := (0, r).
(** [n] units of work, then the rest (e.g. src/messages/utils.rs:4-6) *)
Definition tick {A : Type} (n : N) (x : counted A) : counted A := (n + fst x, snd x).

(** The type of [serialize_into], src/messages.rs:66-68, with its work *)
Definition eser := bytes -> counted (N * bytes).
(** [writer.write_all(b)?; written += n;].
    As at src/messages/challenge.rs:140-141. *)
Definition e_raw (b : bytes) (n : N) : eser := fun w => (1 + len b, Val (n, write_all b w)).
(** src/messages/utils.rs:1-13 *)
Definition e_uint (k : nat) (n : N) : eser := e_raw (le_enc k n) (len (le_enc k n)).
(** [written += a?; written += b?], as at src/messages/field.rs:27-29 *)
Definition e_seq (a b : eser) : eser := fun w =>
  effort! (n, w1) := a w in
  effort! (m, w2) := b w1 in
  at_once (Val (n + m, w2)).
Notation "a *** b" := (e_seq a b) (at level 60, right associativity).
(** src/messages.rs:83-96 *)
Fixpoint e_vec {T : Type} (s : T -> eser) (l : list T) : eser := fun w =>
  match l with
  | [] => at_once (Val (0, w))
  | x :: r => tick 1 (effort! (n, w1) := s x w in
                      effort! (m, w2) := e_vec s r w1 in
                      at_once (Val (n + m, w2)))
  end.

(** src/messages/flags.rs:175-181; field.rs:21-31; unicode_string.rs:67-74, 93-102 *)
Definition e_flags (f : flags) : eser := e_uint 4 f.
(** src/messages/field.rs:22-31 *)
Definition e_field (f : field) : eser :=
  e_uint 2 (f_len f) *** e_uint 2 (f_max_len f) *** e_uint 4 (f_offset f).
(** src/messages/unicode_string.rs:67-74 *)
Definition e_oem (s : rstring) : eser := e_raw (utf8 s) (len (utf8 s)).
(** src/messages/unicode_string.rs:93-102 *)
Definition e_unicode (s : rstring) : eser := e_vec (e_uint 2) (encode_utf16 s).
(** src/messages/structures.rs:30-36 *)
Definition e_buf (n : nat) (b : bytes) : eser := e_raw b (N.of_nat n).
(** version.rs:24-36; filetime.rs:47-57; single_host_data.rs:18-32 *)
Definition e_version (v : version) : eser :=
  e_uint 1 (v_major v) *** e_uint 1 (v_minor v) *** e_uint 2 (v_build v)
  *** e_uint 1 0 *** e_uint 2 0 *** e_uint 1 (v_revision v).
(** src/messages/structures/filetime.rs:47-57 *)
Definition e_filetime (f : filetime) : eser := e_uint 4 (ft_low f) *** e_uint 4 (ft_high f).
(** src/messages/structures/single_host_data.rs:18-32 *)
Definition e_single_host (s : single_host) : eser :=
  e_uint 4 (sh_size s) *** e_uint 4 (sh_z4 s)
  *** e_raw (sh_custom s) (len (sh_custom s)) *** e_raw (sh_machine s) (len (sh_machine s)).
(** avid.rs:36-41, 78-94 *)
Definition e_av_id (i : av_id) : eser := e_uint 2 (av_id_code i).
(** src/messages/structures/avid.rs:78-94 *)
Definition e_av_flags (f : av_flags) : eser := e_uint 4 (av_flags_word f).
(** avid.rs:162-173: the units are collected, then written at once *)
Definition e_encode_string (cfg : config) (s : rstring) : eser := fun w =>
  let utf16 := encode_utf16 s in
  let data := u16s_as_bytes cfg utf16 in
  tick (len utf16)
    (effort! l := at_once (to_u16 (len data)) in
     effort! (n, w1) := e_uint 2 l w in
     effort! (m, w2) := e_raw data (len data) w1 in
     at_once (Val (n + m, w2))).
(** avid.rs:176-224 *)
Definition e_av_pair (cfg : config) (a : av_pair) : eser :=
  e_av_id (get_id a) ***
  match a with
  | AvEOL => e_uint 2 0
  | AvNbComputerName s => e_encode_string cfg s
  | AvNbDomainName s => e_encode_string cfg s
  | AvDnsComputerName s => e_encode_string cfg s
  | AvDnsDomainName s => e_encode_string cfg s
  | AvDnsTreeName s => e_encode_string cfg s
  | AvFlags f => e_uint 2 4 *** e_av_flags f
  | AvTimestamp t => e_uint 2 8 *** e_filetime t
  | AvSingleHost h => e_uint 2 SIZE_OF_SINGLE_HOST *** e_single_host h
  | AvTargetName s => e_encode_string cfg s
  | AvChannelBindings hash => e_uint 2 (len hash) *** e_raw hash (len hash)
  end.
(** lm_challenge.rs:22-27, 73-80, 126-134 *)
Definition e_lm (c : lm_challenge) : eser :=
  match c with
  | LmV1 r => e_buf 24 r
  | LmV2 r cc => e_buf 16 r *** e_buf 8 cc
  end.
(** nt_challenge.rs:45-66, 20-26, 125-134 *)
Definition e_ntv2 (cfg : config) (c : ntv2_challenge) : eser := fun w =>
  effort! (size, w) :=
    (e_uint 1 1 *** e_uint 1 1 *** e_uint 2 0 *** e_uint 4 0
     *** e_filetime (nt_timestamp c)
     *** e_buf 8 (nt_client_challenge c)
     *** e_uint 4 0) w in
  if debug cfg && negb (size =? 28) then at_once (Panic PDebugAssert)
  else
    effort! (n, w) := e_vec (e_av_pair cfg) (nt_target_infos c) w in
    at_once (Val (size + n, w)).
(** src/messages/structures/nt_challenge.rs:126-134 *)
Definition e_nt (cfg : config) (c : nt_challenge) : eser :=
  match c with
  | NtV1 r => e_buf 24 r
  | NtV2 c => e_ntv2 cfg c
  end.

(** field.rs:156-181, 129-154 *)
Definition e_append (value : option eser) (data writer : bytes) : counted (N * bytes * bytes) :=
  effort! (fld, data') :=
    match value with
    | Some s =>
        effort! offset := at_once (to_u32 (len data)) in
        effort! (n, data') := s data in
        effort! l := at_once (to_u16 n) in
        at_once (Val (mkField l l offset, data'))
    | None => at_once (Val (field_zeroed, data))
    end in
  effort! (n, writer') := e_field fld writer in
  at_once (Val (n, data', writer')).
(** src/messages/field.rs:129-154 *)
Definition e_append_many {T : Type} (s : T -> eser) (values : list T) (data writer : bytes)
  : counted (N * bytes * bytes) :=
  effort! (fld, data') :=
    if is_nil values then at_once (Val (field_zeroed, data))
    else
      effort! offset := at_once (to_u32 (len data)) in
      effort! (n, data') := e_vec s values data in
      effort! l := at_once (to_u16 n) in
      at_once (Val (mkField l l offset, data'))
  in
  effort! (n, writer') := e_field fld writer in
  at_once (Val (n, data', writer')).
(** negotiate.rs:81-86 and its likes: the payload is copied once more *)
Definition e_finish (off : N) (written : N) (payload writer : bytes) : counted (N * bytes) :=
  if written =? off then
    effort! p := at_once (slice payload off (len payload)) in
    e_raw p (written + len p) writer
  else at_once (Panic PAssert).
(** negotiate.rs:66-71 and its likes: [resize], then the version *)
Definition e_start (off : nat) (v : option version) : counted bytes :=
  tick (N.of_nat off)
    match v with
    | Some v => effort! (_n, p) := e_version v (zeros off) in at_once (Val p)
    | None => at_once (Val (zeros off))
    end.
(** [self.x.as_ref()], as at src/messages/challenge.rs:143 *)
Definition e_opt {T : Type} (s : T -> eser) (o : option T) : option eser :=
  match o with Some x => Some (s x) | None => None end.

(** negotiate.rs:60-87 *)
Definition negotiate_effort (n : negotiate) : eser := fun writer =>
  effort! payload := e_start 32 (n_version n) in
  effort! (written, writer) := e_raw SIGNATURE (len SIGNATURE) writer in
  effort! (k, writer) := e_uint 4 1 writer in
  let written := written + k in
  effort! (k, writer) := e_flags (n_flags n) writer in
  let written := written + k in
  effort! (k, payload, writer) := e_append (e_opt e_oem (n_domain n)) payload writer in
  let written := written + k in
  effort! (k, payload, writer) := e_append (e_opt e_oem (n_workstation n)) payload writer in
  let written := written + k in
  e_finish 32 written payload writer.
(** challenge.rs:126-154 *)
Definition challenge_effort (cfg : config) (c : challenge) : eser := fun writer =>
  effort! payload := e_start 48 (ch_version c) in
  effort! (written, writer) := e_raw SIGNATURE (len SIGNATURE) writer in
  effort! (k, writer) := e_uint 4 2 writer in
  let written := written + k in
  effort! (k, payload, writer) := e_append (e_opt e_unicode (ch_target_name c)) payload writer in
  let written := written + k in
  effort! (k, writer) := e_flags (ch_flags c) writer in
  let written := written + k in
  effort! (k, writer) := e_buf 8 (ch_server_challenge c) writer in
  let written := written + k in
  effort! (k, writer) := e_uint 8 0 writer in
  let written := written + k in
  effort! (k, payload, writer) := e_append_many (e_av_pair cfg) (ch_target_infos c) payload writer in
  let written := written + k in
  e_finish 48 written payload writer.
(** authenticate.rs:72-107 *)
Definition authenticate_effort (cfg : config) (a : authenticate) : eser := fun writer =>
  effort! payload := e_start 64 (a_version a) in
  effort! (_n, payload) := e_raw (a_mic a) (len (a_mic a)) payload in
  effort! (written, writer) := e_raw SIGNATURE (len SIGNATURE) writer in
  effort! (k, writer) := e_uint 4 3 writer in
  let written := written + k in
  effort! (k, payload, writer) := e_append (e_opt e_lm (a_lm a)) payload writer in
  let written := written + k in
  effort! (k, payload, writer) := e_append (e_opt (e_nt cfg) (a_nt a)) payload writer in
  let written := written + k in
  effort! (k, payload, writer) := e_append (e_opt e_unicode (a_domain a)) payload writer in
  let written := written + k in
  effort! (k, payload, writer) := e_append (e_opt e_unicode (a_user a)) payload writer in
  let written := written + k in
  effort! (k, payload, writer) := e_append (e_opt e_unicode (a_workstation a)) payload writer in
  let written := written + k in
  effort! (k, payload, writer) := e_append (e_opt (e_buf 16) (a_session_key a)) payload writer in
  let written := written + k in
  effort! (k, writer) := e_flags (a_flags a) writer in
  let written := written + k in
  e_finish 64 written payload writer.
(** authenticate.rs:57-68 *)
Definition mic_effort (cfg : config) (P : prims) (a : authenticate) (n : negotiate) (c : challenge)
  : counted authenticate :=
  match a_exported_key a with
  | Some key =>
      let a := with_mic a (buf_default 16) in
      effort! (_k, buffer) := negotiate_effort n [] in
      effort! (_k, buffer) := challenge_effort cfg c buffer in
      effort! (_k, buffer) := authenticate_effort cfg a buffer in
      tick (len buffer) (at_once (Val (with_mic a (p_hmac_md5 P key buffer))))
  | None => at_once (Val a)
  end.
