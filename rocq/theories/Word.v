(** The decoders on a machine whose [usize] has [w] bits (Messages.v has the
    decoders for 64 bits).  The only arithmetic on [usize] that can leave the
    range of a narrow word is in [Field::get_range]: all other lengths are
    those of parts of the input. *)
From Verif Require Import Base Nom Unicode Wire Structures Prims Messages.

(** src/messages/field.rs:52-56.  [as usize] keeps the low bits; [+] panics on
    overflow in debug builds and wraps in release builds. *)
Definition w_get_range (w : N) (cfg : config) (f : field) : outcome (N * N) :=
  let start := f_offset f mod 2 ^ w in
  let size := f_len f mod 2 ^ w in
  if 2 ^ w <=? start + size then
    if debug cfg then Panic POverflow else Val (start, (start + size) mod 2 ^ w)
  else Val (start, start + size).
(** [&input[field.get_range()]].
    src/messages/field.rs:73, 105. *)
Definition w_data (w : N) (cfg : config) (f : field) (input : bytes) : outcome bytes :=
  let! (s, e) := w_get_range w cfg f in slice input s e.

(** src/messages/field.rs:58-88 *)
Definition w_get_data_if (w : N) (cfg : config) {T : Type} (f : field) (p : parser T) (input : bytes) (c : bool)
  : pres (option T) :=
  if c then
    if f_len f =? 0 then POk [] None
    else plift (w_data w cfg f input) (fun data => do (_rest, value) <- p data; POk [] (Some value))
  else POk [] None.
(** src/messages/field.rs:90-119 *)
Definition w_get_many_if (w : N) (cfg : config) {T : Type} (f : field) (p : parser T) (input : bytes) (c : bool)
  : pres (list T) :=
  if c then
    if f_len f =? 0 then POk [] []
    else plift (w_data w cfg f input) (fun data => do (_rest, value) <- many0 p data; POk [] value)
  else POk [] [].

(** negotiate.rs:89-130 *)
Definition w_negotiate_de (w : N) (cfg : config) : parser negotiate := fun input =>
  do (rest, _sig) <- tag SIGNATURE input;
  do (rest, _mt) <- verify le_u32 (fun mt => mt =? 1) rest;
  do (rest, fl) <- flags_de cfg rest;
  do (rest, domain_field) <- field_de rest;
  do (rest, workstation_field) <- field_de rest;
  do (_rest, ver) <- cond (has_flag fl NTLMSSP_NEGOTIATE_VERSION) version_de rest;
  do (_r, domain) <- w_get_data_if w cfg domain_field oem_de input
       (has_flag fl NTLMSSP_NEGOTIATE_OEM_DOMAIN_SUPPLIED || true);
  do (_r, workstation) <- w_get_data_if w cfg workstation_field oem_de input
       (has_flag fl NTLMSSP_NEGOTIATE_OEM_WORKSTATION_SUPPLIED || true);
  POk [] (mkNegotiate fl domain workstation ver).

(** challenge.rs:156-213 *)
Definition w_challenge_de (w : N) (cfg : config) : parser challenge := fun input =>
  do (rest, _sig) <- tag SIGNATURE input;
  do (rest, _mt) <- verify le_u32 (fun mt => mt =? 2) rest;
  do (rest, target_name_field) <- field_de rest;
  do (rest, fl) <- flags_de cfg rest;
  do (rest, server_challenge) <- buf_de 8 rest;
  do (rest, _reserved) <- parse_reserved cfg rest;
  do (rest, target_infos_field) <- field_de rest;
  do (_rest, ver) <- cond (has_flag fl NTLMSSP_NEGOTIATE_VERSION) version_de rest;
  do (_r, target_name) <- w_get_data_if w cfg target_name_field unicode_de input
       (has_flag fl NTLMSSP_REQUEST_TARGET || true);
  do (_r, target_infos) <- w_get_many_if w cfg target_infos_field (av_pair_de cfg) input true;
  if last_is_not_eol target_infos then
    plift (w_data w cfg target_infos_field input) (fun _ => PErr EError)
  else
    POk [] (mkChallenge target_name fl server_challenge target_infos ver).

(** authenticate.rs:109-184 *)
Definition w_authenticate_de (w : N) (cfg : config) : parser authenticate := fun input =>
  do (rest, _sig) <- tag SIGNATURE input;
  do (rest, _mt) <- verify le_u32 (fun mt => mt =? 3) rest;
  do (rest, lm_field) <- field_de rest;
  do (rest, nt_field) <- field_de rest;
  do (rest, domain_field) <- field_de rest;
  do (rest, user_field) <- field_de rest;
  do (rest, workstation_field) <- field_de rest;
  do (rest, key_field) <- field_de rest;
  do (rest, fl) <- flags_de cfg rest;
  do (rest, ver) <- cond (has_flag fl NTLMSSP_NEGOTIATE_VERSION) version_de rest;
  do (_rest, mic) <- buf_de 16 rest;
  do (_r, lm) <-
    (if has_flag fl NTLMSSP_NEGOTIATE_NTLM
     then ok_flatten (w_get_data_if w cfg lm_field lmv1_de input true)
     else ok_flatten (w_get_data_if w cfg lm_field lmv2_de input true));
  do (_r, nt) <- w_get_data_if w cfg nt_field (nt_challenge_de cfg) input true;
  do (_r, domain) <- w_get_data_if w cfg domain_field unicode_de input true;
  do (_r, user) <- w_get_data_if w cfg user_field unicode_de input true;
  do (_r, workstation) <- w_get_data_if w cfg workstation_field unicode_de input true;
  do (_r, key) <- w_get_data_if w cfg key_field (buf_de 16) input
                    (has_flag fl NTLMSSP_NEGOTIATE_KEY_EXCH);
  POk [] (mkAuthenticate lm nt domain user workstation key fl ver mic None).
