(** The calls of the client once more, counting their work in the units of
    Effort.v: one for every byte that is written, copied, cloned or hashed, one
    for every turn of a loop, one for every call of a primitive.  A DES block
    costs the 8 bytes of the key and the 8 bytes of the block, RC4 the 256 turns
    of its key schedule and its data; the padding of hashes is part of the call.
    Not counted: the flags, what [new] does (Creation.v), the text [dbg!] prints (Log.v), what
    the OS does for random bytes and for the time, and freeing memory. *)
From Verif Require Import Base Nom Unicode Wire Structures Prims Messages Crypto Client Effort.

(** [String::clone], and [clone] of an AV pair (the derived one of avid.rs:118):
    the text, or the plain data it holds *)
Definition clone_string (s : rstring) : N := 1 + len (utf8 s).
(** The derived [Clone] of src/messages/structures/avid.rs:117-142 *)
Definition clone_av (a : av_pair) : N :=
  match a with
  | AvEOL => 1
  | AvNbComputerName s | AvNbDomainName s | AvDnsComputerName s | AvDnsDomainName s
  | AvDnsTreeName s | AvTargetName s => clone_string s
  | AvFlags _ => 1 + 3
  | AvTimestamp _ => 1 + 8
  | AvSingleHost _ => 1 + 48
  | AvChannelBindings hash => 1 + len hash
  end.
(** [server_name.to_vec()], ntlmv2.rs:28 *)
Definition clone_infos (l : list av_pair) : N := 1 + fold_right (fun a n => clone_av a + n) 0 l.

(** crypto.rs:24-44: a digest [d] of [input], keyed by [key], copied out *)
Definition digest (key input d : bytes) : counted bytes :=
  (1 + len key + len input + len d, Val d).
(** des.rs:1-40: 8 turns for the parity, 8 bytes of key, 8 of data *)
Definition des7_labour (P : prims) (key7 plain : bytes) : counted bytes :=
  tick 25 (at_once (des7_encrypt P key7 plain)).
(** crypto.rs:46-58 *)
Definition desl_labour (P : prims) (key data : bytes) : counted bytes :=
  if (length key =? 16)%nat && (length data =? 8)%nat then
    let extended_hash := key ++ zeros 5 in
    tick (len extended_hash)
      (effort! r0 := des7_labour P (firstn 7 extended_hash) data in
       effort! r1 := des7_labour P (firstn 7 (skipn 7 extended_hash)) data in
       effort! r2 := des7_labour P (skipn 14 extended_hash) data in
       at_once (Val (r0 ++ r1 ++ r2)))
  else at_once (Panic PAssert).
(** crypto.rs:60-90 *)
Definition kxkey_labour (P : prims) (fl : flags) (session_base_key lm_response_first_8 hash : bytes)
    (server_challenge : option bytes) : counted bytes :=
  if negb (length lm_response_first_8 =? 8)%nat then at_once (Panic PAssert)
  else
  match server_challenge with
  | Some sc =>
      digest session_base_key (sc ++ lm_response_first_8)
        (p_hmac_md5 P session_base_key (sc ++ lm_response_first_8))
  | None =>
      if negb (length hash =? 16)%nat then at_once (Panic PAssert)
      else if has_flag fl NTLMSSP_NEGOTIATE_LM_KEY then
        effort! k0 := des7_labour P (firstn 7 hash) lm_response_first_8 in
        let key := [nth 7 hash 0; 189; 189; 189; 189; 189; 189] in
        effort! k1 := des7_labour P key lm_response_first_8 in
        at_once (Val (k0 ++ k1))
      else if has_flag fl NTLMSSP_REQUEST_NON_NT_SESSION_KEY then
        tick 16 (at_once (Val (firstn 8 hash ++ zeros 8)))
      else tick 16 (at_once (Val session_base_key))
  end.
(** crypto.rs:92-118: the key is copied, the session key cloned and encrypted *)
Definition session_labour (P : prims) (fl : flags) (key_exchange_key : bytes)
    (exported_session_key : option bytes) (random : bytes) : counted (bytes * bytes) :=
  tick (if has_flag fl NTLMSSP_NEGOTIATE_KEY_EXCH
           && (has_flag fl NTLMSSP_NEGOTIATE_SIGN || has_flag fl NTLMSSP_NEGOTIATE_SEAL)
        then 1 + len key_exchange_key + 2 * len random + 256 else 16 + 16)
    (at_once (Val (encrypt_random_session_key P fl key_exchange_key exported_session_key random))).
(** ntlmv1.rs:14-53 *)
Definition ntlmv1_labour (P : prims) (fl : flags)
    (response_key_nt response_key_lm server_challenge client_challenge : bytes)
    (lm_response_ntlm_v1 : bool) : counted (bytes * bytes * bytes) :=
  effort! session_base_key := digest [] response_key_nt (md4 P response_key_nt) in
  if has_flag fl NTLMSSP_NEGOTIATE_EXTENDED_SESSIONSECURITY then
    let both := server_challenge ++ client_challenge in
    effort! data := tick (len both) (digest [] both (md5 P both)) in
    effort! nt := desl_labour P response_key_nt (firstn 8 data) in
    tick 24 (at_once (Val (lmv1_from_client_challenge client_challenge, nt, session_base_key)))
  else
    effort! nt := desl_labour P response_key_nt server_challenge in
    effort! lm := if lm_response_ntlm_v1 then tick 24 (at_once (Val nt))
                  else desl_labour P response_key_lm server_challenge in
    at_once (Val (lm, nt, session_base_key)).
(** ntlmv2.rs:15-57: [serialize] of messages.rs:55-63, then [extend_from_slice] *)
Definition ntlmv2_labour (cfg : config) (P : prims)
    (response_key_nt response_key_lm server_challenge client_challenge : bytes)
    (time : option filetime) (clock : systime) (server_name : list av_pair)
  : counted (bytes * lm_challenge * ntv2_challenge * bytes) :=
  effort! ts := tick 8 (at_once (match time with Some ts => Val ts | None => ft_now clock end)) in
  let nt := mkNtv2 ts client_challenge server_name in
  effort! (size, temp) := tick (len client_challenge + clone_infos server_name) (e_ntv2 cfg nt []) in
  if debug cfg && negb (size =? len temp) then at_once (Panic PDebugAssert)
  else
    let temp' := temp ++ [0; 0; 0; 0] in
    let input := server_challenge ++ temp' in
    effort! nt_proof_str :=
      tick (1 + 4 + 1 + len server_challenge + 1 + len temp')
        (digest response_key_nt input (hmac_md5 P response_key_nt input)) in
    effort! response :=
      digest response_key_lm (server_challenge ++ client_challenge)
        (p_hmac_md5 P response_key_lm (server_challenge ++ client_challenge)) in
    let lm := LmV2 response client_challenge in
    effort! session_base_key :=
      tick (len client_challenge)
        (digest response_key_nt nt_proof_str (hmac_md5 P response_key_nt nt_proof_str)) in
    at_once (Val (nt_proof_str, lm, nt, session_base_key)).

(** client.rs:86-139 *)
Definition send_negociate_labour (c : client) : counted (bytes * client) :=
  effort! msg := tick (if is_nil (cl_domain c) then 0 else clone_string (cl_domain c))
                   (at_once (negociate_message c)) in
  effort! (size, buffer) := negotiate_effort msg [] in
  let c := with_state (with_buffer c buffer) (StNegotiateSent msg) in
  effort! out := at_once (slice buffer 0 size) in
  at_once (Val (out, c)).
(** client.rs:169-202 *)
Definition send_authenticate_ntlmv1_labour (P : prims) (c : client) (r : entropy) : counted authenticate :=
  effort! chal := at_once (get_challenge c) in
  effort! (lm, nt, session_base_key) :=
    ntlmv1_labour P (ch_flags chal) (cl_nt_hash c) (cl_lm_hash c)
      (ch_server_challenge chal) (e_client_challenge r) (negb (cl_level c =? 0)) in
  effort! key_exchange_key :=
    kxkey_labour P (ch_flags chal) session_base_key (firstn 8 lm) (cl_lm_hash c)
      (Some (ch_server_challenge chal)) in
  effort! (exported, encrypted) :=
    session_labour P (ch_flags chal) key_exchange_key None (e_session_key r) in
  let auth := authenticate_default in
  let auth := with_flags auth (ch_flags chal) in
  let auth := with_lm auth (Some (LmV1 lm)) in
  let auth := with_nt auth (Some (NtV1 nt)) in
  let auth := with_domain auth (Some (cl_domain c)) in
  let auth := with_user auth (Some (cl_username c)) in
  let auth := with_workstation auth None in
  let auth := set_encrypted_random_session_key auth (Some encrypted) in
  let auth := with_exported_key auth (Some exported) in
  tick (clone_string (cl_domain c) + clone_string (cl_username c)) (at_once (Val auth)).
(** client.rs:207-216: the turns until the first timestamp *)
Fixpoint timestamp_turns (l : list av_pair) : N :=
  match l with
  | [] => 0
  | AvTimestamp _ :: _ => 1
  | _ :: r => 1 + timestamp_turns r
  end.
(** client.rs:204-243 *)
Definition send_authenticate_ntlmv2_labour (cfg : config) (P : prims) (c : client) (r : entropy)
  : counted authenticate :=
  effort! neg := at_once (get_negotiate c) in
  effort! chal := at_once (get_challenge c) in
  let time := first_timestamp (ch_target_infos chal) in
  effort! (_nt_proof_str, lm, nt, session_base_key) :=
    tick (timestamp_turns (ch_target_infos chal))
      (ntlmv2_labour cfg P (cl_ntlmv2_hash c) (cl_ntlmv2_hash c)
         (ch_server_challenge chal) (e_client_challenge r) time (e_clock r) (ch_target_infos chal)) in
  let key_exchange_key := session_base_key in
  effort! (exported, encrypted) :=
    tick (len session_base_key)
      (session_labour P (ch_flags chal) key_exchange_key None (e_session_key r)) in
  let auth := authenticate_default in
  let auth := with_lm auth (Some lm) in
  let auth := with_nt auth (Some (NtV2 nt)) in
  let auth := with_domain auth (Some (cl_domain c)) in
  let auth := with_user auth (Some (cl_username c)) in
  let auth := with_workstation auth None in
  let auth := set_encrypted_random_session_key auth (Some encrypted) in
  let auth := with_exported_key auth (Some exported) in
  tick (clone_string (cl_domain c) + clone_string (cl_username c)) (mic_effort cfg P auth neg chal).
(** client.rs:272-276 *)
Definition build_authenticate_labour (cfg : config) (P : prims) (c : client) (r : entropy)
  : counted authenticate :=
  match cl_level c with
  | 0 | 1 | 2 => send_authenticate_ntlmv1_labour P c r
  | 3 | 4 | 5 => send_authenticate_ntlmv2_labour cfg P c r
  | _ => at_once (Panic PUnreachable)
  end.
(** client.rs:270-295 *)
Definition send_authenticate_labour (cfg : config) (P : prims) (c : client) (r : entropy)
  : counted (bytes * client) :=
  effort! auth := build_authenticate_labour cfg P c r in
  effort! auth :=
    tick (match cl_workstation c with Some w => clone_string w | None => 0 end)
      (at_once (Val (finish_authenticate c auth))) in
  effort! (_n, buffer) := authenticate_effort cfg auth [] in
  let c := set_authenticated_state (with_buffer c buffer) auth in
  at_once (Val (buffer, c)).
