(** The feature [strict] as it would be with its attributes spelt [feature] instead of
    [features]: source that no build contains (compare [validate] in Wire.v). *)
From Verif Require Import Base Nom Unicode Wire Structures Messages.

(** src/messages/flags.rs:207-286, with [return false] after each test when the feature is on *)
Definition s_validate (cfg : config) (f : flags) : bool :=
  if has_flag f R1 && strict cfg then false
  else if has_flag f R2 && strict cfg then false
  else if has_flag f R3 && strict cfg then false
  else if has_flag f R4 && strict cfg then false
  else if has_flag f R5 && strict cfg then false
  else if has_flag f R6 && strict cfg then false
  else if has_flag f R7 && strict cfg then false
  else if has_flag f R8 && strict cfg then false
  else if has_flag f R9 && strict cfg then false
  else if has_flag f R10 && strict cfg then false
  else if (has_flag f NTLMSSP_TARGET_TYPE_DOMAIN && has_flag f NTLMSSP_TARGET_TYPE_SERVER) && strict cfg then false
  else if (negb (has_flag f NTLMSSP_NEGOTIATE_UNICODE) && negb (has_flag f NTLM_NEGOTIATE_OEM)) && strict cfg then false
  else if (has_flag f NTLMSSP_NEGOTIATE_EXTENDED_SESSIONSECURITY && has_flag f NTLMSSP_NEGOTIATE_LM_KEY) && strict cfg then false
  else true.
(** src/messages/flags.rs:183-188 *)
Definition s_flags_de (cfg : config) : parser flags := verify le_u32 (s_validate cfg).

(** src/messages/negotiate.rs:89-130, [negotiate_de] with these flags *)
Definition s_negotiate_de (cfg : config) : parser negotiate := fun input =>
  do (rest, _sig) <- tag SIGNATURE input;
  do (rest, _mt) <- verify le_u32 (fun mt => mt =? 1) rest;
  do (rest, fl) <- s_flags_de cfg rest;
  do (rest, domain_field) <- field_de rest;
  do (rest, workstation_field) <- field_de rest;
  do (_rest, ver) <- cond (has_flag fl NTLMSSP_NEGOTIATE_VERSION) version_de rest;
  do (_r, domain) <- get_data_if domain_field oem_de input
       (has_flag fl NTLMSSP_NEGOTIATE_OEM_DOMAIN_SUPPLIED || true);
  do (_r, workstation) <- get_data_if workstation_field oem_de input
       (has_flag fl NTLMSSP_NEGOTIATE_OEM_WORKSTATION_SUPPLIED || true);
  POk [] (mkNegotiate fl domain workstation ver).

(** src/messages/challenge.rs:156-213, [challenge_de] with these flags *)
Definition s_challenge_de (cfg : config) : parser challenge := fun input =>
  do (rest, _sig) <- tag SIGNATURE input;
  do (rest, _mt) <- verify le_u32 (fun mt => mt =? 2) rest;
  do (rest, target_name_field) <- field_de rest;
  do (rest, fl) <- s_flags_de cfg rest;
  do (rest, server_challenge) <- buf_de 8 rest;
  do (rest, _reserved) <- parse_reserved cfg rest;
  do (rest, target_infos_field) <- field_de rest;
  do (_rest, ver) <- cond (has_flag fl NTLMSSP_NEGOTIATE_VERSION) version_de rest;
  do (_r, target_name) <- get_data_if target_name_field unicode_de input
       (has_flag fl NTLMSSP_REQUEST_TARGET || true);
  do (_r, target_infos) <- get_many_if target_infos_field (av_pair_de cfg) input true;
  if last_is_not_eol target_infos then
    plift (slice input (fst (get_range target_infos_field)) (snd (get_range target_infos_field)))
          (fun _ => PErr EError)
  else
    POk [] (mkChallenge target_name fl server_challenge target_infos ver).

(** src/messages/authenticate.rs:109-184, [authenticate_de] with these flags *)
Definition s_authenticate_de (cfg : config) : parser authenticate := fun input =>
  do (rest, _sig) <- tag SIGNATURE input;
  do (rest, _mt) <- verify le_u32 (fun mt => mt =? 3) rest;
  do (rest, lm_field) <- field_de rest;
  do (rest, nt_field) <- field_de rest;
  do (rest, domain_field) <- field_de rest;
  do (rest, user_field) <- field_de rest;
  do (rest, workstation_field) <- field_de rest;
  do (rest, key_field) <- field_de rest;
  do (rest, fl) <- s_flags_de cfg rest;
  do (rest, ver) <- cond (has_flag fl NTLMSSP_NEGOTIATE_VERSION) version_de rest;
  do (_rest, mic) <- buf_de 16 rest;
  do (_r, lm) <-
    (if has_flag fl NTLMSSP_NEGOTIATE_NTLM
     then ok_flatten (get_data_if lm_field lmv1_de input true)
     else ok_flatten (get_data_if lm_field lmv2_de input true));
  do (_r, nt) <- get_data_if nt_field (nt_challenge_de cfg) input true;
  do (_r, domain) <- get_data_if domain_field unicode_de input true;
  do (_r, user) <- get_data_if user_field unicode_de input true;
  do (_r, workstation) <- get_data_if workstation_field unicode_de input true;
  do (_r, key) <- get_data_if key_field (buf_de 16) input
                    (has_flag fl NTLMSSP_NEGOTIATE_KEY_EXCH);
  POk [] (mkAuthenticate lm nt domain user workstation key fl ver mic None).

