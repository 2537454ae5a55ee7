(** The decoders and the client once more, with the lines they log or print.

    Messages.v leaves out [log::warn!]; here every decoder also returns the
    texts logged, in order.  A logger that drops or filters records is
    not modelled. *)
From Coq Require Import Ascii String.
From Verif Require Import Base Nom Unicode Wire Structures Prims Messages Crypto Client Debug.

(** Result of a decoder and the lines logged on the way.
    [log::warn!], src/messages/field.rs:70, 77-81, 102, 108-112 and
    src/messages/flags.rs:207-286. *)
Definition logged (A : Type) := (list rstring * pres A)%type.
(** A decoder that logs nothing, src/messages.rs:78-80 *)
Definition quiet {A : Type} (r : pres A) : logged A := ([], r).
(** The operator [?], as at src/messages/field.rs:75 *)
Definition lbind {A B : Type} (r : logged A) (k : bytes -> A -> logged B) : logged B :=
  match snd r with
  | POk i a => (fst r ++ fst (k i a), snd (k i a))
  | PErr e => (fst r, PErr e)
  | PPanic w => (fst r, PPanic w)
  end.
Notation "'log' ( r , x ) <- e ; k" := (lbind e (fun r x => k))
  (at level 200, r name, x name, e at level 100, k at level 200).

(** [Display] of an unsigned integer: decimal digits from the least significant
    one on, at least one; [fuel] bounds the number of digits.
    src/messages/field.rs:77-81. *)
Fixpoint decimal_go (fuel : nat) (n : N) (acc : rstring) : rstring :=
  match fuel with
  | O => acc
  | S fuel =>
      let acc := (48 + n mod 10) :: acc in
      if n / 10 =? 0 then acc else decimal_go fuel (n / 10) acc
  end.
(** [{}] of a number, src/messages/field.rs:77-81 *)
Definition decimal (n : N) : rstring := decimal_go (S (N.to_nat (N.log2 n))) n [].

(** src/messages/flags.rs:207-286, [Flags::validate]: each test that holds logs
    a line and, with [cfg(features = "strict")], which no build sets, fails. *)
Fixpoint warn_tests (cfg : config) (l : list (bool * string)) : list rstring * bool :=
  match l with
  | [] => ([], true)
  | (c, s) :: l =>
      if c then
        if cfg_features_strict cfg then ([text s], false)
        else (text s :: fst (warn_tests cfg l), snd (warn_tests cfg l))
      else warn_tests cfg l
  end.
(** src/messages/flags.rs:207-286 *)
Definition validate_log (cfg : config) (f : flags) : list rstring * bool :=
  warn_tests cfg
    [(has_flag f R1, "flags.has_flag(R1)");
     (has_flag f R2, "flags.has_flag(R2)");
     (has_flag f R3, "flags.has_flag(R3)");
     (has_flag f R4, "flags.has_flag(R4)");
     (has_flag f R5, "flags.has_flag(R5)");
     (has_flag f R6, "flags.has_flag(R6)");
     (has_flag f R7, "flags.has_flag(R7)");
     (has_flag f R8, "flags.has_flag(R8)");
     (has_flag f R9, "flags.has_flag(R9)");
     (has_flag f R10, "flags.has_flag(R10)");
     (has_flag f NTLMSSP_TARGET_TYPE_DOMAIN && has_flag f NTLMSSP_TARGET_TYPE_SERVER,
      "flags cannot have NTLMSSP_TARGET_TYPE_DOMAIN and NTLMSSP_TARGET_TYPE_SERVER");
     (negb (has_flag f NTLMSSP_NEGOTIATE_UNICODE) && negb (has_flag f NTLM_NEGOTIATE_OEM),
      "!flags.has_flag(NTLMSSP_NEGOTIATE_UNICODE) && !flags.has_flag(NTLM_NEGOTIATE_OEM)");
     (has_flag f NTLMSSP_NEGOTIATE_EXTENDED_SESSIONSECURITY && has_flag f NTLMSSP_NEGOTIATE_LM_KEY,
      "flags.has_flag(NTLMSSP_NEGOTIATE_EXTENDED_SESSIONSECURITY) && flags.has_flag(NTLMSSP_NEGOTIATE_LM_KEY)")]%string.

(** src/messages/flags.rs:181-189 *)
Definition l_flags (cfg : config) (i : bytes) : logged flags :=
  log (r, f) <- quiet (le_u32 i);
  (fst (validate_log cfg f), if snd (validate_log cfg f) then POk r f else PErr EError).

(** src/messages/field.rs:70, 102 *)
Definition empty_line (typename : string) : rstring :=
  text "Flag for " ++ text typename ++ text " is set but field is empty".
(** src/messages/field.rs:77-81, 108-112 *)
Definition left_line (typename : string) (n : N) : rstring :=
  text "Not all is consumed for " ++ text typename ++ text ". " ++ decimal n ++ text " bytes remaning".

(** src/messages/field.rs:58-88 *)
Definition l_get_data_if {T : Type} (f : field) (typename : string) (p : parser T) (input : bytes) (c : bool)
  : logged (option T) :=
  if c then
    if f_len f =? 0 then ([empty_line typename], POk [] None)
    else
      match slice input (fst (get_range f)) (snd (get_range f)) with
      | Panic w => quiet (PPanic w)
      | Val data =>
          log (rest, value) <- quiet (p data);
          (if is_nil rest then [] else [left_line typename (len rest)], POk [] (Some value))
      end
  else quiet (POk [] None).
(** src/messages/field.rs:90-119 *)
Definition l_get_many_if {T : Type} (f : field) (typename : string) (p : parser T) (input : bytes) (c : bool)
  : logged (list T) :=
  if c then
    if f_len f =? 0 then ([empty_line typename], POk [] [])
    else
      match slice input (fst (get_range f)) (snd (get_range f)) with
      | Panic w => quiet (PPanic w)
      | Val data =>
          log (rest, value) <- quiet (many0 p data);
          (if is_nil rest then [] else [left_line typename (len rest)], POk [] value)
      end
  else quiet (POk [] []).

(** negotiate.rs:89-130 *)
Definition l_negotiate (cfg : config) (input : bytes) : logged negotiate :=
  log (rest, _sig) <- quiet (tag SIGNATURE input);
  log (rest, _mt) <- quiet (verify le_u32 (fun mt => mt =? 1) rest);
  log (rest, fl) <- l_flags cfg rest;
  log (rest, domain_field) <- quiet (field_de rest);
  log (rest, workstation_field) <- quiet (field_de rest);
  log (_rest, ver) <- quiet (cond (has_flag fl NTLMSSP_NEGOTIATE_VERSION) version_de rest);
  log (_r, domain) <- l_get_data_if domain_field "domain" oem_de input
       (has_flag fl NTLMSSP_NEGOTIATE_OEM_DOMAIN_SUPPLIED || true);
  log (_r, workstation) <- l_get_data_if workstation_field "workstation" oem_de input
       (has_flag fl NTLMSSP_NEGOTIATE_OEM_WORKSTATION_SUPPLIED || true);
  quiet (POk [] (mkNegotiate fl domain workstation ver)).

(** challenge.rs:156-213 *)
Definition l_challenge (cfg : config) (input : bytes) : logged challenge :=
  log (rest, _sig) <- quiet (tag SIGNATURE input);
  log (rest, _mt) <- quiet (verify le_u32 (fun mt => mt =? 2) rest);
  log (rest, target_name_field) <- quiet (field_de rest);
  log (rest, fl) <- l_flags cfg rest;
  log (rest, server_challenge) <- quiet (buf_de 8 rest);
  log (rest, _reserved) <- quiet (parse_reserved cfg rest);
  log (rest, target_infos_field) <- quiet (field_de rest);
  log (_rest, ver) <- quiet (cond (has_flag fl NTLMSSP_NEGOTIATE_VERSION) version_de rest);
  log (_r, target_name) <- l_get_data_if target_name_field "target_name" unicode_de input
       (has_flag fl NTLMSSP_REQUEST_TARGET || true);
  log (_r, target_infos) <- l_get_many_if target_infos_field "target_infos" (av_pair_de cfg) input true;
  quiet
    (if last_is_not_eol target_infos then
       plift (slice input (fst (get_range target_infos_field)) (snd (get_range target_infos_field)))
             (fun _ => PErr EError)
     else
       POk [] (mkChallenge target_name fl server_challenge target_infos ver)).

(** [result.ok().flatten()], authenticate.rs:145-157: what was logged stays *)
Definition l_ok_flatten {A : Type} (r : logged (option A)) : logged (option A) := (fst r, ok_flatten (snd r)).
(** authenticate.rs:109-184 *)
Definition l_authenticate (cfg : config) (input : bytes) : logged authenticate :=
  log (rest, _sig) <- quiet (tag SIGNATURE input);
  log (rest, _mt) <- quiet (verify le_u32 (fun mt => mt =? 3) rest);
  log (rest, lm_field) <- quiet (field_de rest);
  log (rest, nt_field) <- quiet (field_de rest);
  log (rest, domain_field) <- quiet (field_de rest);
  log (rest, user_field) <- quiet (field_de rest);
  log (rest, workstation_field) <- quiet (field_de rest);
  log (rest, key_field) <- quiet (field_de rest);
  log (rest, fl) <- l_flags cfg rest;
  log (rest, ver) <- quiet (cond (has_flag fl NTLMSSP_NEGOTIATE_VERSION) version_de rest);
  log (_rest, mic) <- quiet (buf_de 16 rest);
  log (_r, lm) <-
    (if has_flag fl NTLMSSP_NEGOTIATE_NTLM
     then l_ok_flatten (l_get_data_if lm_field "lmv1_challenge_response" lmv1_de input true)
     else l_ok_flatten (l_get_data_if lm_field "lmv2_challenge_response" lmv2_de input true));
  log (_r, nt) <- l_get_data_if nt_field "nt_challenge_response" (nt_challenge_de cfg) input true;
  log (_r, domain) <- l_get_data_if domain_field "domain" unicode_de input true;
  log (_r, user) <- l_get_data_if user_field "user" unicode_de input true;
  log (_r, workstation) <- l_get_data_if workstation_field "workstation" unicode_de input true;
  log (_r, key) <- l_get_data_if key_field "encrypted_random_session_key" (buf_de 16) input
                    (has_flag fl NTLMSSP_NEGOTIATE_KEY_EXCH);
  quiet (POk [] (mkAuthenticate lm nt domain user workstation key fl ver mic None)).

(** ** The client *)

(** Results with the lines printed on standard error and the lines logged.
    [dbg!] at src/client.rs:136-137, [log::warn!] at
    src/messages/field.rs:70. *)
Record lines := mkLines { printed : list rstring; warned : list rstring }.
(** Nothing written (src/client.rs:141-151) *)
Definition no_lines : lines := mkLines [] [].
(** A call with its lines, src/client.rs:86-139 *)
Definition voiced (A : Type) := (lines * outcome A)%type.
(** A call without lines, src/client.rs:141-151 *)
Definition mute {A : Type} (r : outcome A) : voiced A := (no_lines, r).
(** One statement after another, src/client.rs:134-138 *)
Definition vbind {A B : Type} (r : voiced A) (k : A -> voiced B) : voiced B :=
  match snd r with
  | Val a => (mkLines (printed (fst r) ++ printed (fst (k a))) (warned (fst r) ++ warned (fst (k a))), snd (k a))
  | Panic w => (fst r, Panic w)
  end.
(** [eprintln!] in [dbg!], src/client.rs:136-137 *)
Definition print_line (s : rstring) : voiced unit := (mkLines [s] [], Val tt).
(** [log::warn!], src/messages/field.rs:70 *)
Definition warn_line (s : rstring) : voiced unit := (mkLines [] [s], Val tt).

(** [dbg!] of an unsigned integer; the source location before it is left out
    (its form depends on the compiler).
    src/client.rs:136-137. *)
Definition dbg_line (expr : string) (n : N) : rstring := text expr ++ text " = " ++ decimal n.

(** authenticate.rs:57-68 *)
Definition v_compute_mic (cfg : config) (P : prims) (a : authenticate) (n : negotiate) (c : challenge)
  : voiced authenticate :=
  match a_exported_key a with
  | Some _ => mute (compute_mic cfg P a n c)
  | None => vbind (warn_line (text "Cannot compute MIC as there is no `exported_session_key`."))
              (fun _ => mute (Val a))
  end.

(** client.rs:86-139 *)
Definition v_send_negociate (c : client) : voiced (bytes * client) :=
  vbind (mute (negociate_message c)) (fun msg =>
  vbind (mute (negotiate_ser msg [])) (fun '(size, buffer) =>
  let c := with_state (with_buffer c buffer) (StNegotiateSent msg) in
  vbind (print_line (dbg_line "self.buffer.len()" (len buffer))) (fun _ =>
  vbind (print_line (dbg_line "size" size)) (fun _ =>
  vbind (mute (slice buffer 0 size)) (fun out =>
  mute (Val (out, c))))))).

(** client.rs:204-243, as [send_authenticate_ntlmv2] of Client.v *)
Definition v_send_authenticate_ntlmv2 (cfg : config) (P : prims) (c : client) (r : entropy)
  : voiced authenticate :=
  vbind (mute (get_negotiate c)) (fun neg =>
  vbind (mute (get_challenge c)) (fun chal =>
  let time := first_timestamp (ch_target_infos chal) in
  vbind (mute (ntlmv2_compute_response cfg P (cl_ntlmv2_hash c) (cl_ntlmv2_hash c)
           (ch_server_challenge chal) (e_client_challenge r) time (e_clock r) (ch_target_infos chal)))
    (fun '(_nt_proof_str, lm, nt, session_base_key) =>
  let '(exported, encrypted) :=
    encrypt_random_session_key P (ch_flags chal) session_base_key None (e_session_key r) in
  let auth := authenticate_default in
  let auth := with_lm auth (Some lm) in
  let auth := with_nt auth (Some (NtV2 nt)) in
  let auth := with_domain auth (Some (cl_domain c)) in
  let auth := with_user auth (Some (cl_username c)) in
  let auth := with_workstation auth None in
  let auth := set_encrypted_random_session_key auth (Some encrypted) in
  let auth := with_exported_key auth (Some exported) in
  v_compute_mic cfg P auth neg chal))).

(** client.rs:270-295; the messages of levels 0 to 2 (client.rs:169-202) print
    and log nothing *)
Definition v_send_authenticate (cfg : config) (P : prims) (c : client) (r : entropy)
  : voiced (bytes * client) :=
  vbind (match cl_level c with
         | 0 | 1 | 2 => mute (send_authenticate_ntlmv1 P c r)
         | 3 | 4 | 5 => v_send_authenticate_ntlmv2 cfg P c r
         | _ => mute (Panic PUnreachable)
         end) (fun auth =>
  let auth := finish_authenticate c auth in
  vbind (mute (authenticate_ser cfg auth [])) (fun '(_n, buffer) =>
  let c := set_authenticated_state (with_buffer c buffer) auth in
  mute (Val (buffer, c)))).

(** as [step] of Client.v.
    src/client.rs:86, 141, 270. *)
Definition v_step (cfg : config) (P : prims) (c : client) (o : op) : lines * (client * out) :=
  match o with
  | OpNegociate =>
      (fst (v_send_negociate c),
       match snd (v_send_negociate c) with
       | Val (b, c') => (c', OutBytes b)
       | Panic w => (c, OutPanic w)
       end)
  | OpRecvChallenge ch => (no_lines, (recv_challenge c ch, OutUnit))
  | OpAuthenticate r =>
      (fst (v_send_authenticate cfg P c r),
       match snd (v_send_authenticate cfg P c r) with
       | Val (b, c') => (c', OutBytes b)
       | Panic w => (c, OutPanic w)
       end)
  end.
