(** src/messages/negotiate.rs, challenge.rs, authenticate.rs *)
From Verif Require Import Base Nom Unicode Wire Structures Prims.

(** ** src/messages/negotiate.rs *)

(** negotiate.rs:18-23 *)
Record negotiate := mkNegotiate {
  n_flags : flags;
  n_domain : option rstring;
  n_workstation : option rstring;
  n_version : option version
}.

(** negotiate.rs:17 [Default] *)
Definition negotiate_default : negotiate := mkNegotiate flags_default None None None.

(** [Option::is_some], negotiate.rs:28, 44, authenticate.rs:43,
    src/messages.rs:7 *)
Definition is_some {A : Type} (o : option A) : bool :=
  match o with Some _ => true | None => false end.

(** [if value.is_some() { set_flag } else { clear_flag }], negotiate.rs:28-34 *)
Definition put_flag (f : flags) (bit : N) (b : bool) : flags :=
  if b then set_flag f bit else clear_flag f bit.

(** negotiate.rs:26-36 *)
Definition set_domain_name (n : negotiate) (d : option rstring) : negotiate :=
  mkNegotiate (put_flag (n_flags n) NTLMSSP_NEGOTIATE_OEM_DOMAIN_SUPPLIED (is_some d))
              d (n_workstation n) (n_version n).
(** negotiate.rs:42-52 *)
Definition set_workstation (n : negotiate) (w : option rstring) : negotiate :=
  mkNegotiate (put_flag (n_flags n) NTLMSSP_NEGOTIATE_OEM_WORKSTATION_SUPPLIED (is_some w))
              (n_domain n) w (n_version n).
(** negotiate.rs:38-40, 54-56 *)
Definition get_domain_name (n : negotiate) : option rstring := n_domain n.
(** negotiate.rs:54-56 *)
Definition get_workstation (n : negotiate) : option rstring := n_workstation n.

(** Serialisers lifted to options ([self.x.as_ref()]).
    As at negotiate.rs:78-79, challenge.rs:143, authenticate.rs:90-98. *)
Definition opt_ser {T : Type} (s : T -> ser) (o : option T) : option ser :=
  match o with Some x => Some (s x) | None => None end.

(** [assert_eq!(written, PAYLOAD_OFFSET); writer.write_all(&payload[PAYLOAD_OFFSET..])?;
    written += payload[PAYLOAD_OFFSET..].len();] negotiate.rs:81-86, challenge.rs:149-153,
    authenticate.rs:102-106.  The slice [payload[off..]] panics when the
    payload is shorter. *)
Definition finish (off : N) (written : N) (payload writer : bytes) : outcome (N * bytes) :=
  if written =? off then
    let! p := slice payload off (len payload) in
    Val (written + len p, write_all p writer)
  else Panic PAssert.

(** The initial payload: [PAYLOAD_OFFSET] zeros, then the version if there is
    one (negotiate.rs:66-71, challenge.rs:132-138, authenticate.rs:79-83). *)
Definition start_payload (off : nat) (v : option version) : outcome bytes :=
  match v with
  | Some v => let! (_n, p) := version_ser v (zeros off) in Val p
  | None => Val (zeros off)
  end.

(** negotiate.rs:60-87 *)
Definition negotiate_ser (n : negotiate) : ser := fun writer =>
  let! payload := start_payload 32 (n_version n) in
  let writer := write_all SIGNATURE writer in
  let written := len SIGNATURE in
  let! (k, writer) := write_u32 1 writer in
  let written := written + k in
  let! (k, writer) := flags_ser (n_flags n) writer in
  let written := written + k in
  let! (k, payload, writer) := append (opt_ser oem_ser (n_domain n)) payload writer in
  let written := written + k in
  let! (k, payload, writer) := append (opt_ser oem_ser (n_workstation n)) payload writer in
  let written := written + k in
  finish 32 written payload writer.

(** negotiate.rs:89-130.  [has_flag(..) || true] is the constant true. *)
Definition negotiate_de (cfg : config) : parser negotiate := fun input =>
  do (rest, _sig) <- tag SIGNATURE input;
  do (rest, _mt) <- verify le_u32 (fun mt => mt =? 1) rest;
  do (rest, fl) <- flags_de cfg rest;
  do (rest, domain_field) <- field_de rest;
  do (rest, workstation_field) <- field_de rest;
  do (_rest, ver) <- cond (has_flag fl NTLMSSP_NEGOTIATE_VERSION) version_de rest;
  do (_r, domain) <- get_data_if domain_field oem_de input
       (has_flag fl NTLMSSP_NEGOTIATE_OEM_DOMAIN_SUPPLIED || true);
  do (_r, workstation) <- get_data_if workstation_field oem_de input
       (has_flag fl NTLMSSP_NEGOTIATE_OEM_WORKSTATION_SUPPLIED || true);
  POk [] (mkNegotiate fl domain workstation ver).

(** ** src/messages/challenge.rs *)

(** challenge.rs:20-26 *)
Record challenge := mkChallenge {
  ch_target_name : option rstring;
  ch_flags : flags;
  ch_server_challenge : bytes;      (* ServerChallenge *)
  ch_target_infos : list av_pair;
  ch_version : option version
}.

(** challenge.rs:19 [Default] *)
Definition challenge_default : challenge :=
  mkChallenge None flags_default (buf_default 8) [] None.

(** challenge.rs:29-35 with src/messages.rs:5-13, [set_target_name] *)
Definition set_target_name (c : challenge) (t : option rstring) : challenge :=
  mkChallenge t (put_flag (ch_flags c) NTLMSSP_REQUEST_TARGET (is_some t))
              (ch_server_challenge c) (ch_target_infos c) (ch_version c).
(** src/messages.rs:14-16, [get_target_name] *)
Definition get_target_name (c : challenge) : option rstring := ch_target_name c.

(** [Vec::insert(len - 1, x)].
    challenge.rs:44-45. *)
Definition insert_before_last {A : Type} (l : list A) (x : A) : list A :=
  let index := (length l - 1)%nat in
  firstn index l ++ x :: skipn index l.

(** challenge.rs:37-47 *)
Definition add_target_info (c : challenge) (info : av_pair) : challenge :=
  if is_nil (ch_target_infos c) then
    mkChallenge (ch_target_name c)
                (set_flag (ch_flags c) NTLMSSP_NEGOTIATE_TARGET_INFO)
                (ch_server_challenge c)
                ((ch_target_infos c ++ [info]) ++ [AvEOL])
                (ch_version c)
  else
    mkChallenge (ch_target_name c) (ch_flags c) (ch_server_challenge c)
                (insert_before_last (ch_target_infos c) info)
                (ch_version c).

(** challenge.rs:49-103, the public adders *)
Definition target_infos_add_computername (c : challenge) (s : rstring) := add_target_info c (AvNbComputerName s).
(** challenge.rs:54-57 *)
Definition target_infos_add_domainname (c : challenge) (s : rstring) := add_target_info c (AvNbDomainName s).
(** challenge.rs:59-65 *)
Definition target_infos_add_dnscomputername (c : challenge) (s : rstring) := add_target_info c (AvDnsComputerName s).
(** challenge.rs:67-73 *)
Definition target_infos_add_dnsdomainname (c : challenge) (s : rstring) := add_target_info c (AvDnsDomainName s).
(** challenge.rs:75-78 *)
Definition target_infos_add_dnstreename (c : challenge) (s : rstring) := add_target_info c (AvDnsTreeName s).
(** challenge.rs:80-83 *)
Definition target_infos_add_flags (c : challenge) (f : av_flags) := add_target_info c (AvFlags f).
(** challenge.rs:85-88 *)
Definition target_infos_add_timestamp (c : challenge) (t : filetime) := add_target_info c (AvTimestamp t).
(** challenge.rs:90-93 *)
Definition target_infos_add_singlehost (c : challenge) (h : single_host) := add_target_info c (AvSingleHost h).
(** challenge.rs:95-98 *)
Definition target_infos_add_targetname (c : challenge) (s : rstring) := add_target_info c (AvTargetName s).
(** challenge.rs:100-103 *)
Definition target_infos_add_channelbindings (c : challenge) (b : bytes) := add_target_info c (AvChannelBindings b).
(** challenge.rs:120-122 *)
Definition get_target_infos (c : challenge) : list av_pair := ch_target_infos c.

(** The process environment, as far as the crate reads it: [env::var] of the
    four variables ([None]: unset or not Unicode) and the content of
    /etc/hostname ([None]: unreadable or not UTF-8).
    challenge.rs:105-118, src/client.rs:257-268. *)
Record environment := mkEnv {
  env_COMPUTERNAME : option rstring;
  env_COMPUTERDNSNAME : option rstring;
  env_USERDOMAIN : option rstring;
  env_USERDNSDOMAIN : option rstring;
  env_etc_hostname : option rstring
}.

(** challenge.rs:105-118 *)
Definition fill_from_env (P : prims) (e : environment) (c : challenge) : challenge :=
  let c := match env_COMPUTERNAME e with
           | Some s => target_infos_add_computername c (to_uppercase P s) | None => c end in
  let c := match env_COMPUTERDNSNAME e with
           | Some s => target_infos_add_dnscomputername c s | None => c end in
  let c := match env_USERDOMAIN e with
           | Some s => target_infos_add_domainname c (to_uppercase P s) | None => c end in
  match env_USERDNSDOMAIN e with
  | Some s => target_infos_add_dnsdomainname c s | None => c end.

(** challenge.rs:126-154 *)
Definition challenge_ser (cfg : config) (c : challenge) : ser := fun writer =>
  let! payload := start_payload 48 (ch_version c) in
  let writer := write_all SIGNATURE writer in
  let written := len SIGNATURE in
  let! (k, writer) := write_u32 2 writer in
  let written := written + k in
  let! (k, payload, writer) := append (opt_ser unicode_ser (ch_target_name c)) payload writer in
  let written := written + k in
  let! (k, writer) := flags_ser (ch_flags c) writer in
  let written := written + k in
  let! (k, writer) := buf_ser 8 (ch_server_challenge c) writer in
  let written := written + k in
  let! (k, writer) := write_u64 0 writer in
  let written := written + k in
  let! (k, payload, writer) :=
    append_many (av_pair_ser cfg) (ch_target_infos c) payload writer in
  let written := written + k in
  finish 48 written payload writer.

(** challenge.rs:160-163, the reserved field *)
Definition parse_reserved (cfg : config) : parser N :=
  if strict cfg then verify le_u64 (fun r => r =? 0) else le_u64.

(** [target_infos.last()] is an EOL, or there is none: challenge.rs:192-193 *)
Definition is_eol (a : av_pair) : bool :=
  match a with AvEOL => true | _ => false end.
(** challenge.rs:192-193 *)
Definition last_is_not_eol (l : list av_pair) : bool :=
  match rev l with
  | [] => false
  | x :: _ => negb (is_eol x)
  end.

(** challenge.rs:156-213.  On the EOL error path the range is sliced again
    (challenge.rs:194); it is in range there because it was sliced before. *)
Definition challenge_de (cfg : config) : parser challenge := fun input =>
  do (rest, _sig) <- tag SIGNATURE input;
  do (rest, _mt) <- verify le_u32 (fun mt => mt =? 2) rest;
  do (rest, target_name_field) <- field_de rest;
  do (rest, fl) <- flags_de cfg rest;
  do (rest, server_challenge) <- buf_de 8 rest;
  do (rest, _reserved) <- parse_reserved cfg rest;
  do (rest, target_infos_field) <- field_de rest;
  do (_rest, ver) <- cond (has_flag fl NTLMSSP_NEGOTIATE_VERSION) version_de rest;
  do (_r, target_name) <- get_data_if target_name_field unicode_de input
       (has_flag fl NTLMSSP_REQUEST_TARGET || true);
  do (_r, target_infos) <- get_many_if target_infos_field (av_pair_de cfg) input true;
  if last_is_not_eol target_infos then
    plift (slice input (fst (get_range target_infos_field)) (snd (get_range target_infos_field)))
          (fun _ => PErr EError)
  else
    POk [] (mkChallenge target_name fl server_challenge target_infos ver).

(** ** src/messages/authenticate.rs *)

(** authenticate.rs:24-35 *)
Record authenticate := mkAuthenticate {
  a_lm : option lm_challenge;
  a_nt : option nt_challenge;
  a_domain : option rstring;
  a_user : option rstring;
  a_workstation : option rstring;
  a_session_key : option bytes;           (* EncryptedRandomSessionKey *)
  a_flags : flags;
  a_version : option version;
  a_mic : bytes;                          (* Mic *)
  a_exported_key : option bytes           (* ExportedSessionKey *)
}.

(** authenticate.rs:23 [Default] *)
Definition authenticate_default : authenticate :=
  mkAuthenticate None None None None None None flags_default None (buf_default 16) None.

(** Field updates ([auth.x = v]).
    src/client.rs:193, 233. *)
Definition with_lm (a : authenticate) v := mkAuthenticate v (a_nt a) (a_domain a) (a_user a)
  (a_workstation a) (a_session_key a) (a_flags a) (a_version a) (a_mic a) (a_exported_key a).
(** src/client.rs:194, 234 *)
Definition with_nt (a : authenticate) v := mkAuthenticate (a_lm a) v (a_domain a) (a_user a)
  (a_workstation a) (a_session_key a) (a_flags a) (a_version a) (a_mic a) (a_exported_key a).
(** src/client.rs:195, 235 *)
Definition with_domain (a : authenticate) v := mkAuthenticate (a_lm a) (a_nt a) v (a_user a)
  (a_workstation a) (a_session_key a) (a_flags a) (a_version a) (a_mic a) (a_exported_key a).
(** src/client.rs:196, 236 *)
Definition with_user (a : authenticate) v := mkAuthenticate (a_lm a) (a_nt a) (a_domain a) v
  (a_workstation a) (a_session_key a) (a_flags a) (a_version a) (a_mic a) (a_exported_key a).
(** src/client.rs:197, 237, 278 *)
Definition with_workstation (a : authenticate) v := mkAuthenticate (a_lm a) (a_nt a) (a_domain a)
  (a_user a) v (a_session_key a) (a_flags a) (a_version a) (a_mic a) (a_exported_key a).
(** src/client.rs:192, 281-290 *)
Definition with_flags (a : authenticate) v := mkAuthenticate (a_lm a) (a_nt a) (a_domain a)
  (a_user a) (a_workstation a) (a_session_key a) v (a_version a) (a_mic a) (a_exported_key a).
(** src/client.rs:283 *)
Definition with_version (a : authenticate) v := mkAuthenticate (a_lm a) (a_nt a) (a_domain a)
  (a_user a) (a_workstation a) (a_session_key a) (a_flags a) v (a_mic a) (a_exported_key a).
(** authenticate.rs:57-69 *)
Definition with_mic (a : authenticate) v := mkAuthenticate (a_lm a) (a_nt a) (a_domain a)
  (a_user a) (a_workstation a) (a_session_key a) (a_flags a) (a_version a) v (a_exported_key a).
(** src/client.rs:200, 239 *)
Definition with_exported_key (a : authenticate) v := mkAuthenticate (a_lm a) (a_nt a) (a_domain a)
  (a_user a) (a_workstation a) (a_session_key a) (a_flags a) (a_version a) (a_mic a) v.

(** authenticate.rs:38-51 *)
Definition set_encrypted_random_session_key (a : authenticate) (k : option bytes) : authenticate :=
  mkAuthenticate (a_lm a) (a_nt a) (a_domain a) (a_user a) (a_workstation a) k
    (put_flag (a_flags a) NTLMSSP_NEGOTIATE_KEY_EXCH (is_some k))
    (a_version a) (a_mic a) (a_exported_key a).
(** authenticate.rs:53-55 *)
Definition get_encrypted_random_session_key (a : authenticate) : option bytes := a_session_key a.

(** authenticate.rs:72-107 *)
Definition authenticate_ser (cfg : config) (a : authenticate) : ser := fun writer =>
  let! payload := start_payload 64 (a_version a) in
  let payload := payload ++ a_mic a in
  let writer := write_all SIGNATURE writer in
  let written := len SIGNATURE in
  let! (k, writer) := write_u32 3 writer in
  let written := written + k in
  let! (k, payload, writer) := append (opt_ser lm_challenge_ser (a_lm a)) payload writer in
  let written := written + k in
  let! (k, payload, writer) := append (opt_ser (nt_challenge_ser cfg) (a_nt a)) payload writer in
  let written := written + k in
  let! (k, payload, writer) := append (opt_ser unicode_ser (a_domain a)) payload writer in
  let written := written + k in
  let! (k, payload, writer) := append (opt_ser unicode_ser (a_user a)) payload writer in
  let written := written + k in
  let! (k, payload, writer) := append (opt_ser unicode_ser (a_workstation a)) payload writer in
  let written := written + k in
  let! (k, payload, writer) := append (opt_ser (buf_ser 16) (a_session_key a)) payload writer in
  let written := written + k in
  let! (k, writer) := flags_ser (a_flags a) writer in
  let written := written + k in
  finish 64 written payload writer.

(** [result.ok().flatten()], authenticate.rs:145-157: an error becomes
    [None]; a panic still propagates. *)
Definition ok_flatten {T : Type} (r : pres (option T)) : pres (option T) :=
  match r with
  | POk i v => POk i v
  | PErr _ => POk [] None
  | PPanic w => PPanic w
  end.

(** authenticate.rs:109-184 *)
Definition authenticate_de (cfg : config) : parser authenticate := fun input =>
  do (rest, _sig) <- tag SIGNATURE input;
  do (rest, _mt) <- verify le_u32 (fun mt => mt =? 3) rest;
  do (rest, lm_field) <- field_de rest;
  do (rest, nt_field) <- field_de rest;
  do (rest, domain_field) <- field_de rest;
  do (rest, user_field) <- field_de rest;
  do (rest, workstation_field) <- field_de rest;
  do (rest, key_field) <- field_de rest;
  do (rest, fl) <- flags_de cfg rest;
  do (rest, ver) <- cond (has_flag fl NTLMSSP_NEGOTIATE_VERSION) version_de rest;
  do (_rest, mic) <- buf_de 16 rest;
  do (_r, lm) <-
    (if has_flag fl NTLMSSP_NEGOTIATE_NTLM
     then ok_flatten (get_data_if lm_field lmv1_de input true)
     else ok_flatten (get_data_if lm_field lmv2_de input true));
  do (_r, nt) <- get_data_if nt_field (nt_challenge_de cfg) input true;
  do (_r, domain) <- get_data_if domain_field unicode_de input true;
  do (_r, user) <- get_data_if user_field unicode_de input true;
  do (_r, workstation) <- get_data_if workstation_field unicode_de input true;
  do (_r, key) <- get_data_if key_field (buf_de 16) input
                    (has_flag fl NTLMSSP_NEGOTIATE_KEY_EXCH);
  POk [] (mkAuthenticate lm nt domain user workstation key fl ver mic None).

(** authenticate.rs:57-68, [compute_mic].  The HMAC call (src/crypto.rs:38-44)
    copies 16 bytes into the 16-byte MIC. *)
Definition compute_mic (cfg : config) (P : prims) (a : authenticate) (n : negotiate) (c : challenge)
  : outcome authenticate :=
  match a_exported_key a with
  | Some key =>
      let a := with_mic a (buf_default 16) in
      let! (_k, buffer) := negotiate_ser n [] in
      let! (_k, buffer) := challenge_ser cfg c buffer in
      let! (_k, buffer) := authenticate_ser cfg a buffer in
      Val (with_mic a (p_hmac_md5 P key buffer))
  | None => Val a
  end.
