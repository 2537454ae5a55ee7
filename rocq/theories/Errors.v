(** The decoders once more, with the content of nom's errors.

    The decoders of the crate are generic in the error type [E: NomError]
    (src/messages.rs:55-63); Nom.v, Wire.v, Structures.v and Messages.v erase
    it.  Here [E] is any type with the operations of nom's traits
    [ParseError] and [ContextError], and the decoders call them where the
    code and nom 7 do.  A position ([&[u8]]) is the content of the slice. *)
From Coq Require Import Ascii String.
From Verif Require Import Base Nom Unicode Wire Structures Messages.

(** nom::error::ErrorKind, the kinds that the parsers used can report.
    What the [E] of src/messages.rs:55-63 is told. *)
Inductive error_kind := KTag | KEof | KVerify | KMapOpt | KAlt | KMany0.

(** An implementation of nom::error::{ParseError, ContextError} for [&[u8]].
    The bounds of src/messages.rs:55-63. *)
Record error_type := mkErrorType {
  err : Type;
  from_error_kind : bytes -> error_kind -> err;
  append_error : bytes -> error_kind -> err -> err;
  or_error : err -> err -> err;
  add_context : bytes -> string -> err -> err
}.

(** nom::error::VerboseError (used in the crate's tests): all that is
    reported, innermost first; [or] is the default method, which keeps the
    second error.
    Tests at src/messages/challenge.rs:222-249. *)
Inductive verbose_kind := Context (name : string) | Nom (k : error_kind).
(** [VerboseError] as an implementation of src/messages.rs:55-63 *)
Definition verbose_error : error_type :=
  mkErrorType (list (bytes * verbose_kind)) (fun i k => [(i, Nom k)]) (fun i k e => e ++ [(i, Nom k)])
    (fun _ e => e) (fun i c e => e ++ [(i, Context c)]).
(** nom::error::Error: default [or] and [add_context].
    An [E] of src/messages.rs:55-63. *)
Definition plain_error : error_type :=
  mkErrorType (bytes * error_kind) (fun i k => (i, k)) (fun _ _ e => e) (fun _ e => e) (fun _ _ e => e).
(** [()], used at version.rs:83 *)
Definition unit_error : error_type :=
  mkErrorType unit (fun _ _ => tt) (fun _ _ _ => tt) (fun _ _ => tt) (fun _ _ _ => tt).

(** [IResult<&[u8], A, E>], or a panic.
    src/messages.rs:78-80. *)
Inductive eres (E A : Type) :=
| XOk (rest : bytes) (a : A)
| XErr (e : E)
| XIncomplete (needed : N)
| XPanic (r : panic_reason).
Arguments XOk {E A} rest a.
Arguments XErr {E A} e.
Arguments XIncomplete {E A} needed.
Arguments XPanic {E A} r.

(** Forgetting the error.
    From the results of src/messages.rs:78-80 to those of Nom.v. *)
Definition erase {E A : Type} (r : eres E A) : pres A :=
  match r with
  | XOk i a => POk i a
  | XErr _ => PErr EError
  | XIncomplete n => PErr (EIncomplete n)
  | XPanic w => PPanic w
  end.

(** The type of [deserialize::<E>], src/messages.rs:78-80 *)
Definition eparser (T : error_type) (A : Type) := bytes -> eres (err T) A.

(** The operator [?], as at src/messages/field.rs:75 *)
Definition xbind {E A B : Type} (r : eres E A) (k : bytes -> A -> eres E B) : eres E B :=
  match r with
  | XOk i a => k i a
  | XErr e => XErr e
  | XIncomplete n => XIncomplete n
  | XPanic w => XPanic w
  end.
Notation "'run' ( r , x ) '<-' e ; k" := (xbind e (fun r x => k))
  (at level 200, r name, x pattern, right associativity).
(** [&input\[..\]], src/messages/field.rs:73, 105 *)
Definition xlift {E A B : Type} (o : outcome A) (k : A -> eres E B) : eres E B :=
  match o with Val a => k a | Panic w => XPanic w end.

Section Generic.
Context (T : error_type).

(** ** nom *)
(** nom::bytes::complete::take.
    Used at src/messages/structures.rs:45,
    src/messages/structures/avid.rs:289, single_host_data.rs:45-46. *)
Definition x_take (n : nat) : eparser T bytes := fun i =>
  if (length i <? n)%nat then XErr (from_error_kind T i KEof)
  else XOk (skipn n i) (firstn n i).
(** nom::number::complete::le_u8 and the others.
    Used at src/messages/field.rs:38, src/messages/flags.rs:187,
    src/messages/structures/version.rs:45-51. *)
Definition x_uint (k : nat) : eparser T N := fun i =>
  run (r, b) <- x_take k i; XOk r (le_dec b).
(** nom::bytes::complete::tag.
    Used at src/messages/negotiate.rs:96, challenge.rs:170,
    authenticate.rs:127. *)
Definition x_tag (t : bytes) : eparser T bytes := fun i =>
  if (length t <=? length i)%nat && beq_bytes (firstn (length t) i) t
  then XOk (skipn (length t) i) t
  else XErr (from_error_kind T i KTag).
(** nom::combinator::{map, verify, map_opt, rest, cond}.
    Used at src/messages/flags.rs:187, src/messages/unicode_string.rs:82,
    110, src/messages/structures/lm_challenge.rs:141-142. *)
Definition x_map {A B : Type} (p : eparser T A) (f : A -> B) : eparser T B := fun i =>
  run (r, a) <- p i; XOk r (f a).
(** Used at src/messages/flags.rs:187, src/messages/challenge.rs:163, 170,
    src/messages/structures/version.rs:48-51. *)
Definition x_verify {A : Type} (p : eparser T A) (f : A -> bool) : eparser T A := fun i =>
  run (r, a) <- p i; if f a then XOk r a else XErr (from_error_kind T i KVerify).
(** Used at src/messages/unicode_string.rs:83, 112,
    src/messages/structures/avid.rs:49. *)
Definition x_map_opt {A B : Type} (p : eparser T A) (f : A -> option B) : eparser T B := fun i =>
  run (r, a) <- p i;
  match f a with Some b => XOk r b | None => XErr (from_error_kind T i KMapOpt) end.
(** Used at src/messages/unicode_string.rs:83. *)
Definition x_rest : eparser T bytes := fun i => XOk [] i.
(** Used at src/messages/negotiate.rs:105, challenge.rs:180,
    authenticate.rs:139. *)
Definition x_cond {A : Type} (b : bool) (p : eparser T A) : eparser T (option A) := fun i =>
  if b then run (r, a) <- p i; XOk r (Some a) else XOk i None.
(** nom::error::context.
    src/messages/field.rs:38, 75, src/messages/flags.rs:187 and others. *)
Definition context {A : Type} (name : string) (p : eparser T A) : eparser T A := fun i =>
  match p i with
  | XErr e => XErr (add_context T i name e)
  | r => r
  end.
(** nom::branch::alt of two parsers.
    Used at src/messages/structures/lm_challenge.rs:140,
    nt_challenge.rs:140. *)
Definition x_alt2 {A : Type} (p q : eparser T A) : eparser T A := fun i =>
  match p i with
  | XErr e1 =>
      match q i with
      | XErr e2 => XErr (append_error T i KAlt (or_error T e1 e2))
      | r => r
      end
  | r => r
  end.
(** nom::multi::length_data.
    Used at src/messages/structures/avid.rs:231. *)
Definition x_length_data (p : eparser T N) : eparser T bytes := fun i =>
  run (r, l) <- p i;
  if len r <? l then XIncomplete (l - len r)
  else XOk (skipn (N.to_nat l) r) (firstn (N.to_nat l) r).
(** nom::multi::{many0, fold_many0}.
    Used at src/messages.rs:102, src/messages/field.rs:106. *)
Fixpoint x_many0_go {A : Type} (fuel : nat) (p : eparser T A) (i : bytes) : eres (err T) (list A) :=
  match fuel with
  | O => XPanic PFuel
  | S fuel' =>
      match p i with
      | XErr _ => XOk i []
      | XIncomplete n => XIncomplete n
      | XPanic w => XPanic w
      | XOk i1 o =>
          if (length i1 =? length i)%nat then XErr (from_error_kind T i KMany0)
          else run (r, l) <- x_many0_go fuel' p i1; XOk r (o :: l)
      end
  end.
(** Used at src/messages.rs:102, src/messages/field.rs:106. *)
Definition x_many0 {A : Type} (p : eparser T A) : eparser T (list A) := fun i =>
  x_many0_go (S (length i)) p i.
(** Used at src/messages/unicode_string.rs:111. *)
Fixpoint x_fold_many0_go {A R : Type} (fuel : nat) (p : eparser T A) (g : R -> A -> R)
    (acc : R) (i : bytes) : eres (err T) R :=
  match fuel with
  | O => XPanic PFuel
  | S fuel' =>
      match p i with
      | XErr _ => XOk i acc
      | XIncomplete n => XIncomplete n
      | XPanic w => XPanic w
      | XOk i1 o =>
          if (length i1 =? length i)%nat then XErr (from_error_kind T i KMany0)
          else x_fold_many0_go fuel' p g (g acc o) i1
      end
  end.
(** Used at src/messages/unicode_string.rs:111. *)
Definition x_fold_many0 {A R : Type} (p : eparser T A) (init : R) (g : R -> A -> R) : eparser T R :=
  fun i => x_fold_many0_go (S (length i)) p g init i.

(** ** src/messages/flags.rs:182-189, field.rs, unicode_string.rs *)
Definition x_flags (cfg : config) : eparser T flags :=
  context "Flags" (x_verify (x_uint 4) (validate cfg)).
(** field.rs:33-48 *)
Definition x_field : eparser T field := fun i =>
  run (r, x) <- context "Field" (fun i =>
    run (r, l) <- x_uint 2 i;
    run (r, m) <- x_uint 2 r;
    run (r, o) <- x_uint 4 r;
    XOk r (l, m, o)) i;
  XOk r (mkField (fst (fst x)) (snd (fst x)) (snd x)).
(** field.rs:58-88 *)
Definition x_get_data_if {A : Type} (f : field) (typename : string) (p : eparser T A) (input : bytes) (c : bool)
  : eres (err T) (option A) :=
  if c then
    if f_len f =? 0 then XOk [] None
    else
      xlift (slice input (fst (get_range f)) (snd (get_range f))) (fun data =>
      run (_rest, value) <- context typename (context "Field::get_data" p) data;
      XOk [] (Some value))
  else XOk [] None.
(** field.rs:90-119: the type name is not used as a context *)
Definition x_get_many_if {A : Type} (f : field) (typename : string) (p : eparser T A) (input : bytes) (c : bool)
  : eres (err T) (list A) :=
  if c then
    if f_len f =? 0 then XOk [] []
    else
      xlift (slice input (fst (get_range f)) (snd (get_range f))) (fun data =>
      run (_rest, value) <- context "Field::get_data" (x_many0 p) data;
      XOk [] value)
  else XOk [] [].
(** unicode_string.rs:76-89, 104-128 *)
Definition x_oem : eparser T rstring := context "OEM string" (x_map_opt x_rest from_utf8).
(** src/messages/unicode_string.rs:104-128 *)
Definition x_unicode : eparser T rstring :=
  context "Unicode string" (x_fold_many0 (x_map_opt (x_uint 2) unicode_unit) [] (fun acc c => acc ++ [c])).

(** ** src/messages/structures.rs:38-49: [name] is the literal given to
    [buffer_aliases!] at structures.rs:81-95 *)
Definition x_buf (name : string) (n : nat) : eparser T bytes := context name (x_take n).
(** version.rs:38-65 *)
Definition x_version : eparser T version :=
  context "Version" (fun i =>
    run (r, major) <- context "major" (x_uint 1) i;
    run (r, minor) <- context "minor" (x_uint 1) r;
    run (r, build) <- context "build" (x_uint 2) r;
    run (r, _reserved) <- context "reserved" (x_verify (x_uint 3) (fun x => x =? 0)) r;
    run (r, rev) <- context "revision_count" (x_verify (x_uint 1) (fun x => x =? NTLMSSP_REVISION_W2K3)) r;
    XOk r (mkVersion major minor build rev)).
(** filetime.rs:59-74 *)
Definition x_filetime (cfg : config) : eparser T filetime := fun i =>
  run (r, x) <- context "FileTime" (fun i =>
    run (r, low) <- x_uint 4 i;
    run (r, high) <- x_uint 4 r;
    XOk r (low, high)) i;
  let me := mkFileTime (fst x) (snd x) in
  match ft_to_system_time cfg me with
  | None => XErr (from_error_kind T i KVerify)
  | Some _ => XOk r me
  end.
(** single_host_data.rs:34-62 *)
Definition x_single_host : eparser T single_host :=
  context "SingleHostData" (fun i =>
    run (r, size) <- x_uint 4 i;
    run (r, z4) <- x_verify (x_uint 4) (fun v => v =? 0) r;
    run (r, cd) <- x_take 8 r;
    run (r, mi) <- x_take 32 r;
    XOk r (mkSingleHost size z4 cd mi)).
(** signature.rs:32-54 *)
Definition x_signature : eparser T message_signature :=
  context "MessageSignature" (fun i =>
    run (r, _version) <- context "version" (x_verify (x_uint 4) (fun v => v =? SIG_VERSION)) i;
    run (r, pad) <- x_buf "random_pad" 4 r;
    run (r, checksum) <- context "checksum" (x_uint 4) r;
    run (r, seq) <- context "seq_num" (x_uint 4) r;
    XOk r (mkSignature pad checksum seq)).
(** avid.rs:43-64 *)
Definition x_av_id : eparser T av_id := context "AvId" (x_map_opt (x_uint 2) av_id_of).
(** avid.rs:96-114 *)
Definition x_av_flags : eparser T av_flags := fun i =>
  run (r, w) <- context "MsvAvFlags" (x_verify (x_uint 4) (fun f => N.land f (not_u32 7) =? 0)) i;
  XOk r (mkAvFlags (negb (N.land w 1 =? 0)) (negb (N.land w 2 =? 0)) (negb (N.land w 4 =? 0))).
(** [debug_assert!(r.is_empty())] of the strings and structures in a pair,
    src/messages/structures/avid.rs:226-295 *)
Definition x_assert_consumed {A : Type} (cfg : config) (r : bytes) (k : eres (err T) A) : eres (err T) A :=
  if debug cfg && negb (is_nil r) then XPanic PDebugAssert else k.
(** avid.rs:226-295 *)
Definition x_av_pair (cfg : config) : eparser T av_pair := fun i =>
  run (rest, x) <- context "AvPair" (fun i =>
    run (r, id) <- x_av_id i;
    run (r, data) <- x_length_data (x_uint 2) r;
    XOk r (id, data)) i;
  let data := snd x in
  match fst x with
  | IdEOL => if negb (is_nil data) then XErr (from_error_kind T data KVerify) else XOk rest AvEOL
  | IdNbComputerName =>
      run (r, s) <- x_unicode data; x_assert_consumed cfg r (XOk rest (AvNbComputerName s))
  | IdNbDomainName =>
      run (r, s) <- x_unicode data; x_assert_consumed cfg r (XOk rest (AvNbDomainName s))
  | IdDnsComputerName =>
      run (r, s) <- x_unicode data; x_assert_consumed cfg r (XOk rest (AvDnsComputerName s))
  | IdDnsDomainName =>
      run (r, s) <- x_unicode data; x_assert_consumed cfg r (XOk rest (AvDnsDomainName s))
  | IdDnsTreeName =>
      run (r, s) <- x_unicode data; x_assert_consumed cfg r (XOk rest (AvDnsTreeName s))
  | IdFlags =>
      run (r, f) <- x_av_flags data; x_assert_consumed cfg r (XOk rest (AvFlags f))
  | IdTimestamp =>
      run (r, t) <- x_filetime cfg data; x_assert_consumed cfg r (XOk rest (AvTimestamp t))
  | IdSingleHost =>
      run (r, h) <- x_single_host data; x_assert_consumed cfg r (XOk rest (AvSingleHost h))
  | IdTargetName =>
      run (r, s) <- x_unicode data; x_assert_consumed cfg r (XOk rest (AvTargetName s))
  | IdChannelBindings =>
      run (r, s) <- x_take 16 data; x_assert_consumed cfg r (XOk rest (AvChannelBindings s))
  end.
(** lm_challenge.rs:29-35, 82-98, 136-144 *)
Definition x_lmv1 : eparser T lm_challenge := x_map (context "Lmv1Challenge" (x_buf "response" 24)) LmV1.
(** src/messages/structures/lm_challenge.rs:82-99 *)
Definition x_lmv2 : eparser T lm_challenge :=
  context "Lmv2Challenge" (fun i =>
    run (r, resp) <- x_buf "response" 16 i;
    run (r, cc) <- x_buf "client_challenge" 8 r;
    XOk r (LmV2 resp cc)).
(** src/messages/structures/lm_challenge.rs:136-144 *)
Definition x_lm_challenge : eparser T lm_challenge := x_alt2 x_lmv2 x_lmv1.
(** nt_challenge.rs:68-98 *)
Definition x_ntv2 (cfg : config) : eparser T ntv2_challenge :=
  context "Ntv2Challenge" (fun i =>
    run (r, _1) <- context "RespType" (x_verify (x_uint 1) (fun b => b =? 1)) i;
    run (r, _2) <- context "HiRespType" (x_verify (x_uint 1) (fun b => b =? 1)) r;
    run (r, _3) <- context "Reserved1" (x_verify (x_uint 2) (fun b => b =? 0)) r;
    run (r, _4) <- context "Reserved2" (x_verify (x_uint 4) (fun b => b =? 0)) r;
    run (r, ts) <- x_filetime cfg r;
    run (r, cc) <- x_buf "client_challenge" 8 r;
    run (r, _5) <- x_verify (x_uint 4) (fun b => b =? 0) r;
    run (r, infos) <- x_many0 (x_av_pair cfg) r;
    XOk r (mkNtv2 ts cc infos)).
(** nt_challenge.rs:28-34, 136-144 *)
Definition x_ntv1 : eparser T nt_challenge := x_map (context "Ntv1Challenge" (x_buf "response" 24)) NtV1.
(** src/messages/structures/nt_challenge.rs:136-144 *)
Definition x_nt_challenge (cfg : config) : eparser T nt_challenge :=
  x_alt2 (x_map (x_ntv2 cfg) NtV2) x_ntv1.

(** ** Messages *)
(** negotiate.rs:89-130 *)
Definition x_negotiate (cfg : config) : eparser T negotiate := fun input =>
  run (rest, x) <- context "Negotiate" (fun i =>
    run (rest, _sig) <- x_tag SIGNATURE i;
    run (rest, _mt) <- x_verify (x_uint 4) (fun mt => mt =? 1) rest;
    run (rest, fl) <- x_flags cfg rest;
    run (rest, df) <- context "domain_name_field" x_field rest;
    run (rest, wf) <- context "workstation_field" x_field rest;
    XOk rest (fl, df, wf)) input;
  let fl := fst (fst x) in
  run (_rest, ver) <- x_cond (has_flag fl NTLMSSP_NEGOTIATE_VERSION) (context "Negotiate/version" x_version) rest;
  run (_r, domain) <- x_get_data_if (snd (fst x)) "domain" x_oem input
       (has_flag fl NTLMSSP_NEGOTIATE_OEM_DOMAIN_SUPPLIED || true);
  run (_r, workstation) <- x_get_data_if (snd x) "workstation" x_oem input
       (has_flag fl NTLMSSP_NEGOTIATE_OEM_WORKSTATION_SUPPLIED || true);
  XOk [] (mkNegotiate fl domain workstation ver).
(** challenge.rs:160-163 *)
Definition x_parse_reserved (cfg : config) : eparser T N :=
  if strict cfg then x_verify (x_uint 8) (fun r => r =? 0) else x_uint 8.
(** challenge.rs:156-213 *)
Definition x_challenge (cfg : config) : eparser T challenge := fun input =>
  run (rest, x) <- context "Challenge" (fun i =>
    run (rest, _sig) <- x_tag SIGNATURE i;
    run (rest, _mt) <- x_verify (x_uint 4) (fun mt => mt =? 2) rest;
    run (rest, tf) <- context "target_name_field" x_field rest;
    run (rest, fl) <- context "negotiate_flags" (x_flags cfg) rest;
    run (rest, sc) <- x_buf "server_challenge" 8 rest;
    run (rest, _reserved) <- context "reserved" (x_parse_reserved cfg) rest;
    run (rest, inf) <- context "target_infos_field" x_field rest;
    XOk rest (tf, fl, sc, inf)) input;
  let '(tf, fl, sc, inf) := x in
  run (_rest, ver) <- x_cond (has_flag fl NTLMSSP_NEGOTIATE_VERSION) (context "version" x_version) rest;
  run (_r, target_name) <- x_get_data_if tf "target_name" x_unicode input
       (has_flag fl NTLMSSP_REQUEST_TARGET || true);
  run (_r, target_infos) <- x_get_many_if inf "target_infos" (x_av_pair cfg) input true;
  if last_is_not_eol target_infos then
    xlift (slice input (fst (get_range inf)) (snd (get_range inf))) (fun data =>
      XErr (add_context T data "Challenge/TargetInfos/EOL" (from_error_kind T data KVerify)))
  else
    XOk [] (mkChallenge target_name fl sc target_infos ver).
(** [result.ok().flatten()], authenticate.rs:145-157 *)
Definition x_ok_flatten {A : Type} (r : eres (err T) (option A)) : eres (err T) (option A) :=
  match r with
  | XOk i v => XOk i v
  | XErr _ | XIncomplete _ => XOk [] None
  | XPanic w => XPanic w
  end.
(** authenticate.rs:109-184 *)
Definition x_authenticate (cfg : config) : eparser T authenticate := fun input =>
  run (rest, x) <- context "Authenticate" (fun i =>
    run (rest, _sig) <- x_tag SIGNATURE i;
    run (rest, _mt) <- x_verify (x_uint 4) (fun mt => mt =? 3) rest;
    run (rest, lmf) <- context "lm_challenge" x_field rest;
    run (rest, ntf) <- context "nt_challenge" x_field rest;
    run (rest, df) <- context "domain_field" x_field rest;
    run (rest, uf) <- context "user_field" x_field rest;
    run (rest, wf) <- context "workstation_field" x_field rest;
    run (rest, kf) <- context "encrypted_random_session_key_field" x_field rest;
    run (rest, fl) <- x_flags cfg rest;
    XOk rest (lmf, ntf, df, uf, wf, kf, fl)) input;
  let '(lmf, ntf, df, uf, wf, kf, fl) := x in
  run (rest, ver) <- x_cond (has_flag fl NTLMSSP_NEGOTIATE_VERSION) (context "Authenticate/version" x_version) rest;
  run (_rest, mic) <- context "Authenticate/mic" (x_buf "mic" 16) rest;
  run (_r, lm) <-
    (if has_flag fl NTLMSSP_NEGOTIATE_NTLM
     then x_ok_flatten (x_get_data_if lmf "lmv1_challenge_response" x_lmv1 input true)
     else x_ok_flatten (x_get_data_if lmf "lmv2_challenge_response" x_lmv2 input true));
  run (_r, nt) <- x_get_data_if ntf "nt_challenge_response" (x_nt_challenge cfg) input true;
  run (_r, domain) <- x_get_data_if df "domain" x_unicode input true;
  run (_r, user) <- x_get_data_if uf "user" x_unicode input true;
  run (_r, workstation) <- x_get_data_if wf "workstation" x_unicode input true;
  run (_r, key) <- x_get_data_if kf "encrypted_random_session_key" (x_buf "encrypted_random_session_key" 16) input
                     (has_flag fl NTLMSSP_NEGOTIATE_KEY_EXCH);
  XOk [] (mkAuthenticate lm nt domain user workstation key fl ver mic None).
End Generic.
