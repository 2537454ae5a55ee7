(** The decoders once more, counting their work.

    One unit is paid for every call of a nom primitive that looks at the input
    ([take] and the integers, [tag]), one for every byte it yields, one for
    every turn of [many0] and [fold_many0], one for every slice of the message
    taken for a field, and one for every byte given to [str::from_utf8].  What
    is done per unit takes constant (amortised) time: integers have at most 8
    bytes, [String::push] and [Vec::push] are amortised.  Not counted: building
    error values, whose cost is up to the error type of the caller, and log
    messages (Log.v). *)
From Verif Require Import Base Nom Unicode Wire Structures Messages.

(** The type of [deserialize], src/messages.rs:78-80, with its work *)
Definition cparser (A : Type) := bytes -> N * pres A.
(** The operator [?], as at src/messages/field.rs:75 *)
Definition cbind {A B : Type} (x : N * pres A) (k : bytes -> A -> N * pres B) : N * pres B :=
  match snd x with
  | POk r a => let y := k r a in (fst x + fst y, snd y)
  | PErr e => (fst x, PErr e)
  | PPanic w => (fst x, PPanic w)
  end.
Notation "'pay' ( r , x ) '<-' e ; k" := (cbind e (fun r x => k))
  (at level 200, r name, x pattern, right associativity).
(** Results that cost nothing more.
    As at src/messages/field.rs:83. *)
Definition free {A : Type} (r : pres A) : N * pres A := (0, r).

(** ** nom *)
(** nom::bytes::complete::take.
    Used at src/messages/structures.rs:45,
    src/messages/structures/avid.rs:289, single_host_data.rs:45-46. *)
Definition c_take (n : nat) : cparser bytes := fun i =>
  if (length i <? n)%nat then (1, PErr EError)
  else (1 + N.of_nat n, POk (skipn n i) (firstn n i)).
(** nom::number::complete::le_u8 and the others.
    Used at src/messages/field.rs:38, src/messages/flags.rs:187,
    src/messages/structures/version.rs:45-51. *)
Definition c_uint (k : nat) : cparser N := fun i =>
  pay (r, b) <- c_take k i; free (POk r (le_dec b)).
(** nom::bytes::complete::tag: compares at most all of the tag.
    Used at src/messages/negotiate.rs:96, challenge.rs:170,
    authenticate.rs:127. *)
Definition c_tag (t : bytes) : cparser bytes := fun i => (1 + len t, tag t i).
(** nom::combinator::{map, verify, map_opt, cond}.
    Used at src/messages/flags.rs:187, src/messages/unicode_string.rs:82,
    110, src/messages/structures/lm_challenge.rs:141-142. *)
Definition c_map {A B : Type} (p : cparser A) (f : A -> B) : cparser B := fun i =>
  pay (r, a) <- p i; free (POk r (f a)).
(** Used at src/messages/flags.rs:187, src/messages/challenge.rs:163, 170,
    src/messages/structures/version.rs:48-51. *)
Definition c_verify {A : Type} (p : cparser A) (f : A -> bool) : cparser A := fun i =>
  pay (r, a) <- p i; free (if f a then POk r a else PErr EError).
(** Used at src/messages/unicode_string.rs:83, 112,
    src/messages/structures/avid.rs:49. *)
Definition c_map_opt {A B : Type} (p : cparser A) (f : A -> option B) : cparser B := fun i =>
  pay (r, a) <- p i; free (match f a with Some b => POk r b | None => PErr EError end).
(** Used at src/messages/negotiate.rs:105, challenge.rs:180,
    authenticate.rs:139. *)
Definition c_cond {A : Type} (b : bool) (p : cparser A) : cparser (option A) := fun i =>
  if b then pay (r, a) <- p i; free (POk r (Some a)) else free (POk i None).
(** nom::branch::alt: the work of an alternative that failed is lost.
    Used at src/messages/structures/lm_challenge.rs:140,
    nt_challenge.rs:140. *)
Definition c_alt2 {A : Type} (p q : cparser A) : cparser A := fun i =>
  match snd (p i) with
  | PErr EError => (fst (p i) + fst (q i), snd (q i))
  | _ => p i
  end.
(** nom::multi::length_data: the data are a slice and not looked at.
    Used at src/messages/structures/avid.rs:231. *)
Definition c_length_data (p : cparser N) : cparser bytes := fun i =>
  pay (r, l) <- p i;
  free (if len r <? l then PErr (EIncomplete (l - len r))
        else POk (skipn (N.to_nat l) r) (firstn (N.to_nat l) r)).
(** nom::multi::{many0, fold_many0}.
    Used at src/messages.rs:102, src/messages/field.rs:106. *)
Fixpoint c_many0_go {A : Type} (fuel : nat) (p : cparser A) (i : bytes) : N * pres (list A) :=
  match fuel with
  | O => free (PPanic PFuel)
  | S fuel' =>
      match snd (p i) with
      | PErr EError => (1 + fst (p i), POk i [])
      | PErr e => (1 + fst (p i), PErr e)
      | PPanic w => (1 + fst (p i), PPanic w)
      | POk i1 o =>
          if (length i1 =? length i)%nat then (1 + fst (p i), PErr EError)
          else let y := (pay (r, l) <- c_many0_go fuel' p i1; free (POk r (o :: l))) in
               (1 + fst (p i) + fst y, snd y)
      end
  end.
(** Used at src/messages.rs:102, src/messages/field.rs:106. *)
Definition c_many0 {A : Type} (p : cparser A) : cparser (list A) := fun i =>
  c_many0_go (S (length i)) p i.
(** Used at src/messages/unicode_string.rs:111. *)
Fixpoint c_fold_many0_go {A R : Type} (fuel : nat) (p : cparser A) (g : R -> A -> R)
    (acc : R) (i : bytes) : N * pres R :=
  match fuel with
  | O => free (PPanic PFuel)
  | S fuel' =>
      match snd (p i) with
      | PErr EError => (1 + fst (p i), POk i acc)
      | PErr e => (1 + fst (p i), PErr e)
      | PPanic w => (1 + fst (p i), PPanic w)
      | POk i1 o =>
          if (length i1 =? length i)%nat then (1 + fst (p i), PErr EError)
          else let y := c_fold_many0_go fuel' p g (g acc o) i1 in (1 + fst (p i) + fst y, snd y)
      end
  end.
(** Used at src/messages/unicode_string.rs:111. *)
Definition c_fold_many0 {A R : Type} (p : cparser A) (init : R) (g : R -> A -> R) : cparser R :=
  fun i => c_fold_many0_go (S (length i)) p g init i.

(** ** src/messages/flags.rs:182-189, field.rs, unicode_string.rs *)
Definition c_flags (cfg : config) : cparser flags := c_verify (c_uint 4) (validate cfg).
(** field.rs:33-48 *)
Definition c_field : cparser field := fun i =>
  pay (r, l) <- c_uint 2 i;
  pay (r, m) <- c_uint 2 r;
  pay (r, o) <- c_uint 4 r;
  free (POk r (mkField l m o)).
(** field.rs:58-88, 90-119 *)
Definition c_slice {A : Type} (f : field) (input : bytes) (k : bytes -> N * pres A) : N * pres A :=
  match slice input (fst (get_range f)) (snd (get_range f)) with
  | Val data => (1 + fst (k data), snd (k data))
  | Panic w => (1, PPanic w)
  end.
(** src/messages/field.rs:58-88 *)
Definition c_get_data_if {T : Type} (f : field) (p : cparser T) (input : bytes) (c : bool) : N * pres (option T) :=
  if c then
    if f_len f =? 0 then free (POk [] None)
    else c_slice f input (fun data => pay (_rest, value) <- p data; free (POk [] (Some value)))
  else free (POk [] None).
(** src/messages/field.rs:90-119 *)
Definition c_get_many_if {T : Type} (f : field) (p : cparser T) (input : bytes) (c : bool) : N * pres (list T) :=
  if c then
    if f_len f =? 0 then free (POk [] [])
    else c_slice f input (fun data => pay (_rest, value) <- c_many0 p data; free (POk [] value))
  else free (POk [] []).
(** unicode_string.rs:76-89: [from_utf8] looks at every byte, [to_owned] copies them *)
Definition c_oem : cparser rstring := fun i => (1 + len i, oem_de i).
(** unicode_string.rs:104-128 *)
Definition c_unicode : cparser rstring :=
  c_fold_many0 (c_map_opt (c_uint 2) unicode_unit) [] (fun acc c => acc ++ [c]).

(** ** src/messages/structures *)
(** structures.rs:38-49 *)
Definition c_buf (n : nat) : cparser bytes := c_take n.
(** version.rs:38-65 *)
Definition c_version : cparser version := fun i =>
  pay (r, major) <- c_uint 1 i;
  pay (r, minor) <- c_uint 1 r;
  pay (r, build) <- c_uint 2 r;
  pay (r, _reserved) <- c_verify (c_uint 3) (fun x => x =? 0) r;
  pay (r, rev) <- c_verify (c_uint 1) (fun x => x =? NTLMSSP_REVISION_W2K3) r;
  free (POk r (mkVersion major minor build rev)).
(** filetime.rs:59-74 *)
Definition c_filetime (cfg : config) : cparser filetime := fun i =>
  pay (r, low) <- c_uint 4 i;
  pay (r, high) <- c_uint 4 r;
  let me := mkFileTime low high in
  free (match ft_to_system_time cfg me with
        | None => PErr EError
        | Some _ => POk r me
        end).
(** single_host_data.rs:34-62 *)
Definition c_single_host : cparser single_host := fun i =>
  pay (r, size) <- c_uint 4 i;
  pay (r, z4) <- c_verify (c_uint 4) (fun v => v =? 0) r;
  pay (r, cd) <- c_take 8 r;
  pay (r, mi) <- c_take 32 r;
  free (POk r (mkSingleHost size z4 cd mi)).
(** avid.rs:43-64, 96-114 *)
Definition c_av_id : cparser av_id := c_map_opt (c_uint 2) av_id_of.
(** src/messages/structures/avid.rs:96-114 *)
Definition c_av_flags : cparser av_flags := fun i =>
  pay (r, w) <- c_verify (c_uint 4) (fun f => N.land f (not_u32 7) =? 0) i;
  free (POk r (mkAvFlags (negb (N.land w 1 =? 0)) (negb (N.land w 2 =? 0)) (negb (N.land w 4 =? 0)))).
(** avid.rs:226-295 *)
Definition c_av_pair (cfg : config) : cparser av_pair := fun i =>
  pay (rest, id) <- c_av_id i;
  pay (rest, data) <- c_length_data (c_uint 2) rest;
  match id with
  | IdEOL => free (if negb (is_nil data) then PErr EError else POk rest AvEOL)
  | IdNbComputerName =>
      pay (r, s) <- c_unicode data; free (assert_consumed cfg r (POk rest (AvNbComputerName s)))
  | IdNbDomainName =>
      pay (r, s) <- c_unicode data; free (assert_consumed cfg r (POk rest (AvNbDomainName s)))
  | IdDnsComputerName =>
      pay (r, s) <- c_unicode data; free (assert_consumed cfg r (POk rest (AvDnsComputerName s)))
  | IdDnsDomainName =>
      pay (r, s) <- c_unicode data; free (assert_consumed cfg r (POk rest (AvDnsDomainName s)))
  | IdDnsTreeName =>
      pay (r, s) <- c_unicode data; free (assert_consumed cfg r (POk rest (AvDnsTreeName s)))
  | IdFlags =>
      pay (r, f) <- c_av_flags data; free (assert_consumed cfg r (POk rest (AvFlags f)))
  | IdTimestamp =>
      pay (r, t) <- c_filetime cfg data; free (assert_consumed cfg r (POk rest (AvTimestamp t)))
  | IdSingleHost =>
      pay (r, h) <- c_single_host data; free (assert_consumed cfg r (POk rest (AvSingleHost h)))
  | IdTargetName =>
      pay (r, s) <- c_unicode data; free (assert_consumed cfg r (POk rest (AvTargetName s)))
  | IdChannelBindings =>
      pay (r, s) <- c_take 16 data; free (assert_consumed cfg r (POk rest (AvChannelBindings s)))
  end.
(** lm_challenge.rs:29-39, 82-98 *)
Definition c_lmv1 : cparser lm_challenge := c_map (c_buf 24) LmV1.
(** src/messages/structures/lm_challenge.rs:82-99 *)
Definition c_lmv2 : cparser lm_challenge := fun i =>
  pay (r, resp) <- c_buf 16 i;
  pay (r, cc) <- c_buf 8 r;
  free (POk r (LmV2 resp cc)).
(** nt_challenge.rs:68-98, 28-34, 136-144 *)
Definition c_ntv2 (cfg : config) : cparser ntv2_challenge := fun i =>
  pay (r, _1) <- c_verify (c_uint 1) (fun b => b =? 1) i;
  pay (r, _2) <- c_verify (c_uint 1) (fun b => b =? 1) r;
  pay (r, _3) <- c_verify (c_uint 2) (fun b => b =? 0) r;
  pay (r, _4) <- c_verify (c_uint 4) (fun b => b =? 0) r;
  pay (r, ts) <- c_filetime cfg r;
  pay (r, cc) <- c_buf 8 r;
  pay (r, _5) <- c_verify (c_uint 4) (fun b => b =? 0) r;
  pay (r, infos) <- c_many0 (c_av_pair cfg) r;
  free (POk r (mkNtv2 ts cc infos)).
(** src/messages/structures/nt_challenge.rs:28-34 *)
Definition c_ntv1 : cparser nt_challenge := c_map (c_buf 24) NtV1.
(** src/messages/structures/nt_challenge.rs:136-144 *)
Definition c_nt_challenge (cfg : config) : cparser nt_challenge := c_alt2 (c_map (c_ntv2 cfg) NtV2) c_ntv1.

(** ** The messages *)
(** negotiate.rs:89-130 *)
Definition negotiate_work (cfg : config) : cparser negotiate := fun input =>
  pay (rest, _sig) <- c_tag SIGNATURE input;
  pay (rest, _mt) <- c_verify (c_uint 4) (fun mt => mt =? 1) rest;
  pay (rest, fl) <- c_flags cfg rest;
  pay (rest, domain_field) <- c_field rest;
  pay (rest, workstation_field) <- c_field rest;
  pay (_rest, ver) <- c_cond (has_flag fl NTLMSSP_NEGOTIATE_VERSION) c_version rest;
  pay (_r, domain) <- c_get_data_if domain_field c_oem input
       (has_flag fl NTLMSSP_NEGOTIATE_OEM_DOMAIN_SUPPLIED || true);
  pay (_r, workstation) <- c_get_data_if workstation_field c_oem input
       (has_flag fl NTLMSSP_NEGOTIATE_OEM_WORKSTATION_SUPPLIED || true);
  free (POk [] (mkNegotiate fl domain workstation ver)).
(** challenge.rs:156-208 *)
Definition c_reserved (cfg : config) : cparser N :=
  if strict cfg then c_verify (c_uint 8) (fun r => r =? 0) else c_uint 8.
(** src/messages/challenge.rs:156-208 *)
Definition challenge_work (cfg : config) : cparser challenge := fun input =>
  pay (rest, _sig) <- c_tag SIGNATURE input;
  pay (rest, _mt) <- c_verify (c_uint 4) (fun mt => mt =? 2) rest;
  pay (rest, target_name_field) <- c_field rest;
  pay (rest, fl) <- c_flags cfg rest;
  pay (rest, server_challenge) <- c_buf 8 rest;
  pay (rest, _reserved) <- c_reserved cfg rest;
  pay (rest, target_infos_field) <- c_field rest;
  pay (_rest, ver) <- c_cond (has_flag fl NTLMSSP_NEGOTIATE_VERSION) c_version rest;
  pay (_r, target_name) <- c_get_data_if target_name_field c_unicode input
       (has_flag fl NTLMSSP_REQUEST_TARGET || true);
  pay (_r, target_infos) <- c_get_many_if target_infos_field (c_av_pair cfg) input true;
  if last_is_not_eol target_infos then c_slice target_infos_field input (fun _ => free (PErr EError))
  else free (POk [] (mkChallenge target_name fl server_challenge target_infos ver)).
(** authenticate.rs:109-176 *)
Definition authenticate_work (cfg : config) : cparser authenticate := fun input =>
  pay (rest, _sig) <- c_tag SIGNATURE input;
  pay (rest, _mt) <- c_verify (c_uint 4) (fun mt => mt =? 3) rest;
  pay (rest, lm_field) <- c_field rest;
  pay (rest, nt_field) <- c_field rest;
  pay (rest, domain_field) <- c_field rest;
  pay (rest, user_field) <- c_field rest;
  pay (rest, workstation_field) <- c_field rest;
  pay (rest, key_field) <- c_field rest;
  pay (rest, fl) <- c_flags cfg rest;
  pay (rest, ver) <- c_cond (has_flag fl NTLMSSP_NEGOTIATE_VERSION) c_version rest;
  pay (_rest, mic) <- c_buf 16 rest;
  pay (_r, lm) <-
    (let x := if has_flag fl NTLMSSP_NEGOTIATE_NTLM
              then c_get_data_if lm_field c_lmv1 input true
              else c_get_data_if lm_field c_lmv2 input true in
     (fst x, ok_flatten (snd x)));
  pay (_r, nt) <- c_get_data_if nt_field (c_nt_challenge cfg) input true;
  pay (_r, domain) <- c_get_data_if domain_field c_unicode input true;
  pay (_r, user) <- c_get_data_if user_field c_unicode input true;
  pay (_r, workstation) <- c_get_data_if workstation_field c_unicode input true;
  pay (_r, key) <- c_get_data_if key_field (c_buf 16) input
                    (has_flag fl NTLMSSP_NEGOTIATE_KEY_EXCH);
  free (POk [] (mkAuthenticate lm nt domain user workstation key fl ver mic None)).
