(** src/messages/structures.rs and src/messages/structures/*.rs *)
From Verif Require Import Base Nom Unicode Wire.

(** ** Fixed-size buffers: src/messages/structures.rs:24-104 [buffer_aliases!]
    [ServerChallenge] and [ClientChallenge] (8), [SessionBaseKey],
    [KeyExchangeKey], [ExportedSessionKey], [EncryptedRandomSessionKey],
    [NtProofStr], [Response16], [Mic] (16), [Response24] (24), [RandomPad] (4)
    are byte lists; their length is an invariant of the Rust type. *)
Definition is_buffer (n : nat) (b : bytes) : Prop := length b = n /\ is_bytes b.

(** src/messages/structures.rs:30-36: writes the whole array, returns its size *)
Definition buf_ser (n : nat) (b : bytes) : ser := raww b (N.of_nat n).
(** src/messages/structures.rs:38-49 *)
Definition buf_de (n : nat) : parser bytes := take n.
(** src/messages/structures.rs:26 [Default] *)
Definition buf_default (n : nat) : bytes := zeros n.

(** ** src/messages/structures/version.rs *)
Record version := mkVersion {
  v_major : N; v_minor : N; v_build : N; v_revision : N
}.
(** version.rs:21 *)
Definition NTLMSSP_REVISION_W2K3 : N := 15.

(** version.rs:24-36 *)
Definition version_ser (v : version) : ser :=
  write_u8 (v_major v) +++ write_u8 (v_minor v) +++ write_u16 (v_build v)
  +++ write_u8 0 +++ write_u16 0 +++ write_u8 (v_revision v).

(** version.rs:38-65 *)
Definition version_de : parser version := fun i =>
  do (r, major) <- le_u8 i;
  do (r, minor) <- le_u8 r;
  do (r, build) <- le_u16 r;
  do (r, _reserved) <- verify le_u24 (fun x => x =? 0) r;
  do (r, rev) <- verify le_u8 (fun x => x =? NTLMSSP_REVISION_W2K3) r;
  POk r (mkVersion major minor build rev).

(** version.rs:68-77, [From<(u8, u8, u16)>] *)
Definition version_from (major minor build : N) : version :=
  mkVersion major minor build NTLMSSP_REVISION_W2K3.

(** version.rs:79-88, [TryFrom<[u8; 8]>]; a panic cannot occur and is mapped
    to itself through the option-valued outcome. *)
Definition version_try_from (b : bytes) : outcome (option version) :=
  match version_de b with
  | POk _ v => Val (Some v)
  | PErr _ => Val None
  | PPanic w => Panic w
  end.

(** ** src/messages/structures/filetime.rs *)
Record filetime := mkFileTime { ft_low : N; ft_high : N }.
(** filetime.rs:14 *)
Definition NANO_TO_MILLI : N := 1000000.

(** A [std::time::SystemTime] is a signed number of nanoseconds relative to
    [UNIX_EPOCH].
    src/messages/structures/filetime.rs:16, 30, 40. *)
Definition systime := Z.

(** Errors of [TryFrom<SystemTime>], filetime.rs:17: [Some(SystemTimeError)]
    before the epoch, [None] on overflow. *)
Inductive ft_error := FtBeforeEpoch | FtOverflow.

(** filetime.rs:19-26: [seconds.checked_mul(NANO_TO_MILLI)] on [u64], then split *)
Definition filetime_try_from (t : systime) : filetime + ft_error :=
  if (t <? 0)%Z then inr FtBeforeEpoch
  else
    let seconds := Z.to_N (t / 1000000000) in
    let nsec := seconds * NANO_TO_MILLI in
    if nsec <? 18446744073709551616
    then inl (mkFileTime (N.land nsec 4294967295) (N.shiftr nsec 32 mod 4294967296))
    else inr FtOverflow.

(** filetime.rs:35-37 *)
Definition ft_as_u64 (f : filetime) : N :=
  N.lor (N.shiftl (ft_high f) 32) (ft_low f).

(** [UNIX_EPOCH.checked_add(Duration::from_secs(s))] of the standard library:
    on Unix the seconds are an [i64]; on Windows a [SystemTime] is an [i64]
    number of 100 ns intervals since 1601, of which 116444736000000000 precede
    the Unix epoch.
    src/messages/structures/filetime.rs:30-33. *)
Definition epoch_checked_add_secs (cfg : config) (s : N) : option systime :=
  let ok :=
    if windows cfg
    then s * 10000000 + 116444736000000000 <=? 9223372036854775807
    else s <=? 9223372036854775807 in
  if ok then Some (Z.of_N s * 1000000000)%Z else None.

(** filetime.rs:30-33 *)
Definition ft_to_system_time (cfg : config) (f : filetime) : option systime :=
  epoch_checked_add_secs cfg (ft_as_u64 f / NANO_TO_MILLI).

(** filetime.rs:39-43, [now]: the clock is the argument *)
Definition ft_now (clock : systime) : outcome filetime :=
  match filetime_try_from clock with
  | inl f => Val f
  | inr _ => Panic PExpect
  end.

(** filetime.rs:47-57 *)
Definition filetime_ser (f : filetime) : ser :=
  write_u32 (ft_low f) +++ write_u32 (ft_high f).

(** filetime.rs:59-74 *)
Definition filetime_de (cfg : config) : parser filetime := fun i =>
  do (r, low) <- le_u32 i;
  do (r, high) <- le_u32 r;
  let me := mkFileTime low high in
  match ft_to_system_time cfg me with
  | None => PErr EError
  | Some _ => POk r me
  end.

(** ** src/messages/structures/single_host_data.rs *)
Record single_host := mkSingleHost {
  sh_size : N; sh_z4 : N; sh_custom : bytes; sh_machine : bytes
}.
(** single_host_data.rs:18-32 *)
Definition single_host_ser (s : single_host) : ser :=
  write_u32 (sh_size s) +++ write_u32 (sh_z4 s)
  +++ raww (sh_custom s) (len (sh_custom s)) +++ raww (sh_machine s) (len (sh_machine s)).

(** single_host_data.rs:34-62 *)
Definition single_host_de : parser single_host := fun i =>
  do (r, size) <- le_u32 i;
  do (r, z4) <- verify le_u32 (fun v => v =? 0) r;
  do (r, cd) <- take 8 r;
  do (r, mi) <- take 32 r;
  POk r (mkSingleHost size z4 cd mi).

(** [size_of::<SingleHostData>()] = 4 + 4 + 8 + 32, asserted by the repo's own
    test single_host_data.rs:69-72 *)
Definition SIZE_OF_SINGLE_HOST : N := 48.

(** ** src/messages/structures/signature.rs *)
Record message_signature := mkSignature {
  sg_pad : bytes; sg_checksum : N; sg_seq : N
}.
(** signature.rs:8 *)
Definition SIG_VERSION : N := 1.
(** signature.rs:18-30 *)
Definition signature_ser (s : message_signature) : ser :=
  write_u32 SIG_VERSION +++ buf_ser 4 (sg_pad s)
  +++ write_u32 (sg_checksum s) +++ write_u32 (sg_seq s).
(** signature.rs:32-54 *)
Definition signature_de : parser message_signature := fun i =>
  do (r, _version) <- verify le_u32 (fun v => v =? SIG_VERSION) i;
  do (r, pad) <- buf_de 4 r;
  do (r, checksum) <- le_u32 r;
  do (r, seq) <- le_u32 r;
  POk r (mkSignature pad checksum seq).

(** ** src/messages/structures/avid.rs *)

(** avid.rs:20-33 *)
Inductive av_id :=
| IdEOL | IdNbComputerName | IdNbDomainName | IdDnsComputerName | IdDnsDomainName
| IdDnsTreeName | IdFlags | IdTimestamp | IdSingleHost | IdTargetName | IdChannelBindings.

(** avid.rs:20-33, [*self as u16] *)
Definition av_id_code (i : av_id) : N :=
  match i with
  | IdEOL => 0 | IdNbComputerName => 1 | IdNbDomainName => 2 | IdDnsComputerName => 3
  | IdDnsDomainName => 4 | IdDnsTreeName => 5 | IdFlags => 6 | IdTimestamp => 7
  | IdSingleHost => 8 | IdTargetName => 9 | IdChannelBindings => 10
  end.

(** avid.rs:36-41 *)
Definition av_id_ser (i : av_id) : ser := write_u16 (av_id_code i).

(** avid.rs:49-62 *)
Definition av_id_of (v : N) : option av_id :=
  match v with
  | 0 => Some IdEOL
  | 1 => Some IdNbComputerName
  | 2 => Some IdNbDomainName
  | 3 => Some IdDnsComputerName
  | 4 => Some IdDnsDomainName
  | 5 => Some IdDnsTreeName
  | 6 => Some IdFlags
  | 7 => Some IdTimestamp
  | 8 => Some IdSingleHost
  | 9 => Some IdTargetName
  | 10 => Some IdChannelBindings
  | _ => None
  end.
(** avid.rs:43-64 *)
Definition av_id_de : parser av_id := map_opt le_u16 av_id_of.

(** avid.rs:67-75 *)
Record av_flags := mkAvFlags {
  avf_constrained : bool; avf_mic : bool; avf_untrusted_spn : bool
}.
(** avid.rs:78-94 *)
Definition av_flags_word (f : av_flags) : N :=
  let w := 0 in
  let w := if avf_constrained f then N.lor w 1 else w in
  let w := if avf_mic f then N.lor w 2 else w in
  if avf_untrusted_spn f then N.lor w 4 else w.
(** src/messages/structures/avid.rs:78-94 *)
Definition av_flags_ser (f : av_flags) : ser := write_u32 (av_flags_word f).
(** avid.rs:96-114 *)
Definition av_flags_de : parser av_flags := fun i =>
  do (r, w) <- verify le_u32 (fun f => N.land f (not_u32 7) =? 0) i;
  POk r (mkAvFlags (negb (N.land w 1 =? 0)) (negb (N.land w 2 =? 0)) (negb (N.land w 4 =? 0))).

(** avid.rs:117-142 *)
Inductive av_pair :=
| AvEOL
| AvNbComputerName (s : rstring)
| AvNbDomainName (s : rstring)
| AvDnsComputerName (s : rstring)
| AvDnsDomainName (s : rstring)
| AvDnsTreeName (s : rstring)
| AvFlags (f : av_flags)
| AvTimestamp (t : filetime)
| AvSingleHost (h : single_host)
| AvTargetName (s : rstring)
| AvChannelBindings (hash : bytes).

(** avid.rs:145-159 *)
Definition get_id (a : av_pair) : av_id :=
  match a with
  | AvEOL => IdEOL
  | AvNbComputerName _ => IdNbComputerName
  | AvNbDomainName _ => IdNbDomainName
  | AvDnsComputerName _ => IdDnsComputerName
  | AvDnsDomainName _ => IdDnsDomainName
  | AvDnsTreeName _ => IdDnsTreeName
  | AvFlags _ => IdFlags
  | AvTimestamp _ => IdTimestamp
  | AvSingleHost _ => IdSingleHost
  | AvTargetName _ => IdTargetName
  | AvChannelBindings _ => IdChannelBindings
  end.

(** avid.rs:162-173, [encode_string]: the UTF-16 units are written in host
    byte order; [Write::write] on a vector writes everything. *)
Definition encode_string (cfg : config) (s : rstring) : ser := fun w =>
  let utf16 := encode_utf16 s in
  let data := u16s_as_bytes cfg utf16 in
  let! l := to_u16 (len data) in
  let! (n, w1) := write_u16 l w in
  Val (n + len data, write_all data w1).

(** avid.rs:176-224 *)
Definition av_pair_ser (cfg : config) (a : av_pair) : ser :=
  av_id_ser (get_id a) +++
  match a with
  | AvEOL => write_u16 0
  | AvNbComputerName s => encode_string cfg s
  | AvNbDomainName s => encode_string cfg s
  | AvDnsComputerName s => encode_string cfg s
  | AvDnsDomainName s => encode_string cfg s
  | AvDnsTreeName s => encode_string cfg s
  | AvFlags f => write_u16 4 +++ av_flags_ser f
  | AvTimestamp t => write_u16 8 +++ filetime_ser t
  | AvSingleHost h => write_u16 SIZE_OF_SINGLE_HOST +++ single_host_ser h
  | AvTargetName s => encode_string cfg s
  | AvChannelBindings hash => write_u16 (len hash) +++ raww hash (len hash)
  end.

(** [debug_assert_eq!(r.len(), 0)], avid.rs:244 and following *)
Definition assert_consumed {A : Type} (cfg : config) (r : bytes) (k : pres A) : pres A :=
  if debug cfg && negb (is_nil r) then PPanic PDebugAssert else k.

(** avid.rs:226-295 *)
Definition av_pair_de (cfg : config) : parser av_pair := fun i =>
  do (rest, id) <- av_id_de i;
  do (rest, data) <- length_data le_u16 rest;
  match id with
  | IdEOL => if negb (is_nil data) then PErr EError else POk rest AvEOL
  | IdNbComputerName =>
      do (r, s) <- unicode_de data; assert_consumed cfg r (POk rest (AvNbComputerName s))
  | IdNbDomainName =>
      do (r, s) <- unicode_de data; assert_consumed cfg r (POk rest (AvNbDomainName s))
  | IdDnsComputerName =>
      do (r, s) <- unicode_de data; assert_consumed cfg r (POk rest (AvDnsComputerName s))
  | IdDnsDomainName =>
      do (r, s) <- unicode_de data; assert_consumed cfg r (POk rest (AvDnsDomainName s))
  | IdDnsTreeName =>
      do (r, s) <- unicode_de data; assert_consumed cfg r (POk rest (AvDnsTreeName s))
  | IdFlags =>
      do (r, f) <- av_flags_de data; assert_consumed cfg r (POk rest (AvFlags f))
  | IdTimestamp =>
      do (r, t) <- filetime_de cfg data; assert_consumed cfg r (POk rest (AvTimestamp t))
  | IdSingleHost =>
      do (r, h) <- single_host_de data; assert_consumed cfg r (POk rest (AvSingleHost h))
  | IdTargetName =>
      do (r, s) <- unicode_de data; assert_consumed cfg r (POk rest (AvTargetName s))
  | IdChannelBindings =>
      do (r, s) <- take 16 data; assert_consumed cfg r (POk rest (AvChannelBindings s))
  end.

(** ** src/messages/structures/lm_challenge.rs *)

(** lm_challenge.rs:17-19, 47-50, 102-105 *)
Inductive lm_challenge :=
| LmV1 (response : bytes)                    (* Response24 *)
| LmV2 (response client_challenge : bytes).  (* Response16, ClientChallenge *)

(** lm_challenge.rs:38-44, [Lmv1Challenge::from_client_challenge]: the client
    challenge copied over the first bytes of 24 zeros *)
Definition lmv1_from_client_challenge (cc : bytes) : bytes :=
  cc ++ skipn (length cc) (buf_default 24).

(** lm_challenge.rs:22-27, 73-80, 126-134 *)
Definition lm_challenge_ser (c : lm_challenge) : ser :=
  match c with
  | LmV1 r => buf_ser 24 r
  | LmV2 r cc => buf_ser 16 r +++ buf_ser 8 cc
  end.

(** lm_challenge.rs:29-35 *)
Definition lmv1_de : parser lm_challenge := pmap (buf_de 24) LmV1.
(** lm_challenge.rs:82-98 *)
Definition lmv2_de : parser lm_challenge := fun i =>
  do (r, resp) <- buf_de 16 i;
  do (r, cc) <- buf_de 8 r;
  POk r (LmV2 resp cc).
(** lm_challenge.rs:136-144 *)
Definition lm_challenge_de : parser lm_challenge := alt2 lmv2_de lmv1_de.

(** ** src/messages/structures/nt_challenge.rs *)

(** nt_challenge.rs:38-42 *)
Record ntv2_challenge := mkNtv2 {
  nt_timestamp : filetime; nt_client_challenge : bytes; nt_target_infos : list av_pair
}.
(** nt_challenge.rs:16-18, 101-105 *)
Inductive nt_challenge :=
| NtV1 (response : bytes)
| NtV2 (c : ntv2_challenge).

(** nt_challenge.rs:45-66; the [debug_assert_eq!(size, 28)] is modelled. *)
Definition ntv2_ser (cfg : config) (c : ntv2_challenge) : ser := fun w =>
  let! (size, w) :=
    (write_u8 1 +++ write_u8 1 +++ write_u16 0 +++ write_u32 0
     +++ filetime_ser (nt_timestamp c)
     +++ buf_ser 8 (nt_client_challenge c)
     +++ write_u32 0) w in
  if debug cfg && negb (size =? 28) then Panic PDebugAssert
  else
    let! (n, w) := ser_vec (av_pair_ser cfg) (nt_target_infos c) w in
    Val (size + n, w).

(** nt_challenge.rs:20-26, 125-134 *)
Definition nt_challenge_ser (cfg : config) (c : nt_challenge) : ser :=
  match c with
  | NtV1 r => buf_ser 24 r
  | NtV2 c => ntv2_ser cfg c
  end.

(** nt_challenge.rs:68-98 *)
Definition ntv2_de (cfg : config) : parser ntv2_challenge := fun i =>
  do (r, _1) <- verify le_u8 (fun b => b =? 1) i;
  do (r, _2) <- verify le_u8 (fun b => b =? 1) r;
  do (r, _3) <- verify le_u16 (fun b => b =? 0) r;
  do (r, _4) <- verify le_u32 (fun b => b =? 0) r;
  do (r, ts) <- filetime_de cfg r;
  do (r, cc) <- buf_de 8 r;
  do (r, _5) <- verify le_u32 (fun b => b =? 0) r;
  do (r, infos) <- many0 (av_pair_de cfg) r;
  POk r (mkNtv2 ts cc infos).

(** nt_challenge.rs:28-34 *)
Definition ntv1_de : parser nt_challenge := pmap (buf_de 24) NtV1.
(** nt_challenge.rs:136-144 *)
Definition nt_challenge_de (cfg : config) : parser nt_challenge :=
  alt2 (pmap (ntv2_de cfg) NtV2) ntv1_de.
