(** src/client.rs (and [NtlmVersion] of src/lib.rs:1-3) *)
From Verif Require Import Base Nom Unicode Wire Structures Messages Prims Crypto.

(** client.rs:14-20 *)
Inductive client_state :=
| StNew
| StNegotiateSent (n : negotiate)
| StChallengeReceived (n : negotiate) (c : challenge)
| StAuthenticateSent (n : negotiate) (c : challenge) (a : authenticate).

(** client.rs:22-34.  [cl_level] is [V::version()] of the type parameter [V]
    (src/lib.rs:1-3), taken as a constant of the client. *)
Record client := mkClient {
  cl_state : client_state;
  cl_username : rstring;
  cl_lm_hash : bytes;
  cl_nt_hash : bytes;
  cl_ntlmv2_hash : bytes;
  cl_domain : rstring;
  cl_workstation : option rstring;
  cl_target : rstring;
  cl_buffer : bytes;
  cl_version : option version;
  cl_level : N
}.

(** [self.state = s], client.rs:135, 147, 251 *)
Definition with_state (c : client) (s : client_state) : client :=
  mkClient s (cl_username c) (cl_lm_hash c) (cl_nt_hash c) (cl_ntlmv2_hash c) (cl_domain c)
    (cl_workstation c) (cl_target c) (cl_buffer c) (cl_version c) (cl_level c).
(** [self.buffer] after [clear] and [serialize_into], client.rs:133-134,
    291-292 *)
Definition with_buffer (c : client) (b : bytes) : client :=
  mkClient (cl_state c) (cl_username c) (cl_lm_hash c) (cl_nt_hash c) (cl_ntlmv2_hash c)
    (cl_domain c) (cl_workstation c) (cl_target c) b (cl_version c) (cl_level c).

(** client.rs:257-268, [get_workstation_name].  [Ok(None)] of an unreadable
    file is [Val None]; [lines().next().unwrap()] panics on an empty file. *)
Definition get_workstation_name (P : prims) (e : environment) : outcome (option rstring) :=
  match env_COMPUTERNAME e with
  | Some s => Val (Some s)
  | None =>
      match env_etc_hostname e with
      | None => Val None
      | Some hostname =>
          match first_line hostname with
          | None => Panic PExpect
          | Some firstline =>
              match split_once 46 firstline with
              | Some (cn, _) => Val (Some (to_uppercase P (trim cn)))
              | None => Val (Some (to_uppercase P (trim firstline)))
              end
          end
      end
  end.

(** client.rs:74-84 *)
Definition compute_ntlm_hashes (cfg : config) (P : prims) (username password domain : rstring)
  : outcome (bytes * bytes * bytes) :=
  let! lm_hash := lmowfv1 P password in
  let nt_hash := ntowfv1 cfg P password in
  let ntlmv2_hash := ntowfv2 cfg P username nt_hash domain in
  Val (lm_hash, nt_hash, ntlmv2_hash).

(** client.rs:51-72 *)
Definition new_with_domain (cfg : config) (P : prims) (e : environment) (level : N)
    (username domain password target : rstring) : outcome client :=
  let! (lm_hash, nt_hash, ntlmv2_hash) := compute_ntlm_hashes cfg P username password domain in
  let! workstation := get_workstation_name P e in
  Val (mkClient StNew username lm_hash nt_hash ntlmv2_hash domain workstation target [] None level).

(** client.rs:40-49: [92] is a backslash, [64] an at sign *)
Definition client_new (cfg : config) (P : prims) (e : environment) (level : N)
    (username password target : rstring) : outcome client :=
  match split_once 92 username with
  | Some (domain, user) => new_with_domain cfg P e level user domain password target
  | None =>
      match split_once 64 username with
      | Some (user, domain) => new_with_domain cfg P e level user domain password target
      | None => new_with_domain cfg P e level username [] password target
      end
  end.

(** client.rs:87-123: the flags by level *)
Definition negociate_flags (level : N) : outcome flags :=
  let f := n_flags negotiate_default in
  let f := set_flag f NTLM_NEGOTIATE_OEM in
  let f := set_flag f NTLMSSP_NEGOTIATE_128 in
  let f := set_flag f NTLMSSP_NEGOTIATE_ALWAYS_SIGN in
  let f := set_flag f NTLMSSP_NEGOTIATE_SEAL in
  let f := set_flag f NTLMSSP_NEGOTIATE_SIGN in
  let f := set_flag f NTLMSSP_NEGOTIATE_UNICODE in
  let f := set_flag f NTLMSSP_TARGET_TYPE_SERVER in
  match level with
  | 0 =>
      let f := set_flag f NTLMSSP_NEGOTIATE_NTLM in
      let f := set_flag f NTLMSSP_NEGOTIATE_LM_KEY in
      Val (set_flag f NTLMSSP_NEGOTIATE_KEY_EXCH)
  | 1 =>
      let f := set_flag f NTLMSSP_NEGOTIATE_NTLM in
      Val (set_flag f NTLMSSP_NEGOTIATE_EXTENDED_SESSIONSECURITY)
  | 2 | 3 | 4 | 5 =>
      let f := set_flag f NTLMSSP_NEGOTIATE_EXTENDED_SESSIONSECURITY in
      let f := set_flag f NTLMSSP_NEGOTIATE_KEY_EXCH in
      Val (set_flag f NTLMSSP_NEGOTIATE_TARGET_INFO)
  | _ => Panic PExplicit
  end.

(** client.rs:124-132: version, domain, REQUEST_TARGET *)
Definition negociate_message (c : client) : outcome negotiate :=
  let! f := negociate_flags (cl_level c) in
  let msg := mkNegotiate f None None None in
  let msg := match cl_version c with
             | Some v => mkNegotiate (set_flag (n_flags msg) NTLMSSP_NEGOTIATE_VERSION)
                           (n_domain msg) (n_workstation msg) (Some v)
             | None => msg
             end in
  let msg := if negb (is_nil (cl_domain c)) then set_domain_name msg (Some (cl_domain c)) else msg in
  Val (mkNegotiate (set_flag (n_flags msg) NTLMSSP_REQUEST_TARGET)
         (n_domain msg) (n_workstation msg) (n_version msg)).

(** client.rs:86-139: returns the slice [&self.buffer[..size]] and the new
    client.  The [dbg!] lines only print, see Log.v. *)
Definition send_negociate (c : client) : outcome (bytes * client) :=
  let! msg := negociate_message c in
  let! (size, buffer) := negotiate_ser msg [] in
  let c := with_state (with_buffer c buffer) (StNegotiateSent msg) in
  let! out := slice buffer 0 size in
  Val (out, c).

(** client.rs:141-151 *)
Definition recv_challenge (c : client) (chal : challenge) : client :=
  match cl_state c with
  | StNegotiateSent n => with_state c (StChallengeReceived n chal)
  | _ => c
  end.

(** client.rs:153-159 *)
Definition get_challenge (c : client) : outcome challenge :=
  match cl_state c with
  | StChallengeReceived _ ch => Val ch
  | StAuthenticateSent _ ch _ => Val ch
  | _ => Panic PUnreachable
  end.

(** client.rs:161-167 *)
Definition get_negotiate (c : client) : outcome negotiate :=
  match cl_state c with
  | StChallengeReceived n _ => Val n
  | StAuthenticateSent n _ _ => Val n
  | _ => Panic PUnreachable
  end.

(** What one call of [send_authenticate] draws from the OS: the client
    challenge (8 bytes), the random session key (16 bytes, used only with key
    exchange) and the clock (used only without a server timestamp).
    client.rs:271, crypto.rs:103, filetime.rs:39-44. *)
Record entropy := mkEntropy {
  e_client_challenge : bytes;
  e_session_key : bytes;
  e_clock : systime
}.
(** The lengths of what client.rs:271 and crypto.rs:103 draw *)
Definition is_entropy (r : entropy) : Prop :=
  is_buffer 8 (e_client_challenge r) /\ is_buffer 16 (e_session_key r).

(** client.rs:169-202 *)
Definition send_authenticate_ntlmv1 (P : prims) (c : client) (r : entropy) : outcome authenticate :=
  let! chal := get_challenge c in
  let! (lm, nt, session_base_key) :=
    ntlmv1_compute_response P (ch_flags chal) (cl_nt_hash c) (cl_lm_hash c)
      (ch_server_challenge chal) (e_client_challenge r) (negb (cl_level c =? 0)) in
  let! key_exchange_key :=
    kxkey P (ch_flags chal) session_base_key (firstn 8 lm) (cl_lm_hash c)
      (Some (ch_server_challenge chal)) in
  let '(exported, encrypted) :=
    encrypt_random_session_key P (ch_flags chal) key_exchange_key None (e_session_key r) in
  let auth := authenticate_default in
  let auth := with_flags auth (ch_flags chal) in
  let auth := with_lm auth (Some (LmV1 lm)) in
  let auth := with_nt auth (Some (NtV1 nt)) in
  let auth := with_domain auth (Some (cl_domain c)) in
  let auth := with_user auth (Some (cl_username c)) in
  let auth := with_workstation auth None in
  let auth := set_encrypted_random_session_key auth (Some encrypted) in
  let auth := with_exported_key auth (Some exported) in
  Val auth.

(** client.rs:207-216: the first timestamp among the target infos *)
Fixpoint first_timestamp (l : list av_pair) : option filetime :=
  match l with
  | [] => None
  | AvTimestamp t :: _ => Some t
  | _ :: r => first_timestamp r
  end.

(** client.rs:204-243 *)
Definition send_authenticate_ntlmv2 (cfg : config) (P : prims) (c : client) (r : entropy)
  : outcome authenticate :=
  let! neg := get_negotiate c in
  let! chal := get_challenge c in
  let time := first_timestamp (ch_target_infos chal) in
  let! (_nt_proof_str, lm, nt, session_base_key) :=
    ntlmv2_compute_response cfg P (cl_ntlmv2_hash c) (cl_ntlmv2_hash c)
      (ch_server_challenge chal) (e_client_challenge r) time (e_clock r) (ch_target_infos chal) in
  let key_exchange_key := session_base_key in
  let '(exported, encrypted) :=
    encrypt_random_session_key P (ch_flags chal) key_exchange_key None (e_session_key r) in
  let auth := authenticate_default in
  let auth := with_lm auth (Some lm) in
  let auth := with_nt auth (Some (NtV2 nt)) in
  let auth := with_domain auth (Some (cl_domain c)) in
  let auth := with_user auth (Some (cl_username c)) in
  let auth := with_workstation auth None in
  let auth := set_encrypted_random_session_key auth (Some encrypted) in
  let auth := with_exported_key auth (Some exported) in
  compute_mic cfg P auth neg chal.

(** client.rs:245-255 *)
Definition set_authenticated_state (c : client) (a : authenticate) : client :=
  match cl_state c with
  | StChallengeReceived n ch => with_state c (StAuthenticateSent n ch a)
  | _ => c
  end.

(** client.rs:277-290: workstation, version and flag changes after the
    response was computed *)
Definition finish_authenticate (c : client) (auth : authenticate) : authenticate :=
  let auth := match cl_workstation c with
              | Some w => with_workstation auth (Some w) | None => auth end in
  let auth := match cl_version c with
              | Some v => with_version
                            (with_flags auth (set_flag (a_flags auth) NTLMSSP_NEGOTIATE_VERSION))
                            (Some v)
              | None => auth end in
  let f := clear_flag (a_flags auth) NTLMSSP_TARGET_TYPE_SERVER in
  let f := clear_flag f NTLM_NEGOTIATE_OEM in
  let f := set_flag f NTLMSSP_NEGOTIATE_TARGET_INFO in
  let f := set_flag f NTLMSSP_REQUEST_TARGET in
  with_flags auth f.

(** client.rs:272-276: the message by level, before [finish_authenticate] *)
Definition build_authenticate (cfg : config) (P : prims) (c : client) (r : entropy)
  : outcome authenticate :=
  match cl_level c with
  | 0 | 1 | 2 => send_authenticate_ntlmv1 P c r
  | 3 | 4 | 5 => send_authenticate_ntlmv2 cfg P c r
  | _ => Panic PUnreachable
  end.

(** client.rs:270-295 *)
Definition send_authenticate (cfg : config) (P : prims) (c : client) (r : entropy)
  : outcome (bytes * client) :=
  let! auth := build_authenticate cfg P c r in
  let auth := finish_authenticate c auth in
  let! (_n, buffer) := authenticate_ser cfg auth [] in
  let c := set_authenticated_state (with_buffer c buffer) auth in
  Val (buffer, c).

(** ** The public interface as a state machine.  A panic leaves the protocol
    state unchanged: every assignment to [self.state] comes after the last
    operation that can panic ([self.buffer] may be left partly written, which
    no later call can observe since each send clears it first).  Unwind.v has
    the calls statement by statement, where this is proved, and the one
    exception, a [dbg!] that cannot print.
    client.rs:86, 141, 270. *)
Inductive op :=
| OpNegociate
| OpRecvChallenge (c : challenge)
| OpAuthenticate (r : entropy).

(** What the caller of client.rs:86, 141, 270 sees *)
Inductive out :=
| OutBytes (b : bytes)
| OutUnit
| OutPanic (r : panic_reason).

(** One of the calls of client.rs:86, 141, 270 *)
Definition step (cfg : config) (P : prims) (c : client) (o : op) : client * out :=
  match o with
  | OpNegociate =>
      match send_negociate c with
      | Val (b, c') => (c', OutBytes b)
      | Panic w => (c, OutPanic w)
      end
  | OpRecvChallenge ch => (recv_challenge c ch, OutUnit)
  | OpAuthenticate r =>
      match send_authenticate cfg P c r with
      | Val (b, c') => (c', OutBytes b)
      | Panic w => (c, OutPanic w)
      end
  end.

(** A history of calls, and the client after it.
    Calls of client.rs:86, 141, 270, one after the other. *)
Definition run (cfg : config) (P : prims) (c : client) (h : list op) : client :=
  fold_left (fun c o => fst (step cfg P c o)) h c.
