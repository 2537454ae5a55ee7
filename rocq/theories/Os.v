(** The client with the operating system it asks for random bytes
    ([OsRng.fill_bytes], structures.rs:82-86) and for the time
    ([SystemTime::now], filetime.rs:39-43).  Client.v takes what a reply draws
    as an argument; here the order and the number of requests are those of
    the code, a request for random bytes may fail, and any number of clients
    share one operating system. *)
From Verif Require Import Base Nom Unicode Wire Structures Messages Prims Crypto Client.

(** src/messages/structures.rs:84, src/messages/structures/filetime.rs:40 *)
Inductive request :=
| AskRandom (n : N)
| AskClock.

(** What the operating system answers, after the requests made before (the
    last one first).  [None]: no random bytes can be had.
    src/messages/structures.rs:84, src/messages/structures/filetime.rs:40. *)
Record os := mkOs {
  os_random : list request -> N -> option bytes;
  os_clock : list request -> systime
}.

(** How code that asks the operating system ends: as before, or with the
    panic of [OsRng.fill_bytes] (rand_core: [panic!("Error: {}", e)]).
    src/messages/structures.rs:84. *)
Inductive ended (A : Type) :=
| Ended (o : outcome A)
| NoRandom.
Arguments Ended {A} o.
Arguments NoRandom {A}.

(** Code that asks: from the requests made before to those made after.
    As src/client.rs:270-295. *)
Definition code (A : Type) := os -> list request -> list request * ended A.
(** Code that asks nothing, e.g. src/client.rs:141-151 *)
Definition pure {A : Type} (o : outcome A) : code A := fun O log => (log, Ended o).
(** One statement after another, src/client.rs:270-295 *)
Definition ask_bind {A B : Type} (m : code A) (f : A -> code B) : code B := fun O log =>
  match m O log with
  | (log, Ended (Val a)) => f a O log
  | (log, Ended (Panic w)) => (log, Ended (Panic w))
  | (log, NoRandom) => (log, NoRandom)
  end.

(** structures.rs:82-86, [random()] of a buffer of [n] bytes *)
Definition o_random (n : N) : code bytes := fun O log =>
  (AskRandom n :: log, match os_random O log n with Some b => Ended (Val b) | None => NoRandom end).
(** [SystemTime::now()].
    src/messages/structures/filetime.rs:40. *)
Definition o_clock : code systime := fun O log => (AskClock :: log, Ended (Val (os_clock O log))).
(** filetime.rs:39-43 *)
Definition o_filetime_now : code filetime := ask_bind o_clock (fun t => pure (ft_now t)).

(** crypto.rs:92-118: [ExportedSessionKey::random()] is called only with key
    exchange and without a given key. *)
Definition o_encrypt_random_session_key (P : prims) (fl : flags) (key_exchange_key : bytes)
    (exported_session_key : option bytes) : code (bytes * bytes) :=
  if has_flag fl NTLMSSP_NEGOTIATE_KEY_EXCH
     && (has_flag fl NTLMSSP_NEGOTIATE_SIGN || has_flag fl NTLMSSP_NEGOTIATE_SEAL)
  then
    ask_bind (match exported_session_key with Some e => pure (Val e) | None => o_random 16 end) (fun esk =>
    pure (Val (esk, rc4_apply P key_exchange_key esk)))
  else pure (Val (key_exchange_key, buf_default 16)).

(** ntlmv2.rs:15-57: [FileTime::now] is called only without a time *)
Definition o_ntlmv2_compute_response (cfg : config) (P : prims)
    (response_key_nt response_key_lm server_challenge client_challenge : bytes)
    (time : option filetime) (server_name : list av_pair)
  : code (bytes * lm_challenge * ntv2_challenge * bytes) :=
  ask_bind (match time with Some ts => pure (Val ts) | None => o_filetime_now end) (fun ts =>
  pure (
    let nt := mkNtv2 ts client_challenge server_name in
    let! temp := serialize cfg (ntv2_ser cfg nt) in
    let temp := temp ++ [0; 0; 0; 0] in
    let input := server_challenge ++ temp in
    let nt_proof_str := hmac_md5 P response_key_nt input in
    let response := p_hmac_md5 P response_key_lm (server_challenge ++ client_challenge) in
    let lm := LmV2 response client_challenge in
    let session_base_key := hmac_md5 P response_key_nt nt_proof_str in
    Val (nt_proof_str, lm, nt, session_base_key))).

(** client.rs:169-202 *)
Definition o_authenticate_ntlmv1 (P : prims) (c : client) (client_challenge : bytes) : code authenticate :=
  ask_bind (pure (get_challenge c)) (fun chal =>
  ask_bind (pure (ntlmv1_compute_response P (ch_flags chal) (cl_nt_hash c) (cl_lm_hash c)
      (ch_server_challenge chal) client_challenge (negb (cl_level c =? 0)))) (fun '(lm, nt, session_base_key) =>
  ask_bind (pure (kxkey P (ch_flags chal) session_base_key (firstn 8 lm) (cl_lm_hash c)
      (Some (ch_server_challenge chal)))) (fun key_exchange_key =>
  ask_bind (o_encrypt_random_session_key P (ch_flags chal) key_exchange_key None) (fun '(exported, encrypted) =>
  let auth := authenticate_default in
  let auth := with_flags auth (ch_flags chal) in
  let auth := with_lm auth (Some (LmV1 lm)) in
  let auth := with_nt auth (Some (NtV1 nt)) in
  let auth := with_domain auth (Some (cl_domain c)) in
  let auth := with_user auth (Some (cl_username c)) in
  let auth := with_workstation auth None in
  let auth := set_encrypted_random_session_key auth (Some encrypted) in
  let auth := with_exported_key auth (Some exported) in
  pure (Val auth))))).

(** client.rs:204-243 *)
Definition o_authenticate_ntlmv2 (cfg : config) (P : prims) (c : client) (client_challenge : bytes)
  : code authenticate :=
  ask_bind (pure (get_negotiate c)) (fun neg =>
  ask_bind (pure (get_challenge c)) (fun chal =>
  ask_bind (o_ntlmv2_compute_response cfg P (cl_ntlmv2_hash c) (cl_ntlmv2_hash c)
      (ch_server_challenge chal) client_challenge (first_timestamp (ch_target_infos chal))
      (ch_target_infos chal)) (fun '(_nt_proof_str, lm, nt, session_base_key) =>
  ask_bind (o_encrypt_random_session_key P (ch_flags chal) session_base_key None) (fun '(exported, encrypted) =>
  let auth := authenticate_default in
  let auth := with_lm auth (Some lm) in
  let auth := with_nt auth (Some (NtV2 nt)) in
  let auth := with_domain auth (Some (cl_domain c)) in
  let auth := with_user auth (Some (cl_username c)) in
  let auth := with_workstation auth None in
  let auth := set_encrypted_random_session_key auth (Some encrypted) in
  let auth := with_exported_key auth (Some exported) in
  pure (compute_mic cfg P auth neg chal))))).

(** client.rs:270-295 *)
Definition o_send_authenticate (cfg : config) (P : prims) (c : client) : code (bytes * client) :=
  ask_bind (o_random 8) (fun client_challenge =>
  ask_bind (match cl_level c with
         | 0 | 1 | 2 => o_authenticate_ntlmv1 P c client_challenge
         | 3 | 4 | 5 => o_authenticate_ntlmv2 cfg P c client_challenge
         | _ => pure (Panic PUnreachable)
         end) (fun auth =>
  let auth := finish_authenticate c auth in
  ask_bind (pure (authenticate_ser cfg auth [])) (fun '(_n, buffer) =>
  pure (Val (buffer, set_authenticated_state (with_buffer c buffer) auth))))).

(** The public interface: what a user calls, without the random numbers.
    src/client.rs:86, 141, 270. *)
Inductive call :=
| Negociate
| Receive (ch : challenge)
| Reply.

(** One call: the client after it, the requests made, and what came out
    ([None]: the panic of [OsRng.fill_bytes]).  As in Client.v a panic leaves
    the client as it was.
    src/client.rs:86, 141, 270. *)
Definition o_step (cfg : config) (P : prims) (O : os) (c : client) (log : list request) (k : call)
  : client * list request * option out :=
  match k with
  | Negociate =>
      match send_negociate c with
      | Val (b, c') => (c', log, Some (OutBytes b))
      | Panic w => (c, log, Some (OutPanic w))
      end
  | Receive ch => (recv_challenge c ch, log, Some OutUnit)
  | Reply =>
      match o_send_authenticate cfg P c O log with
      | (log, Ended (Val (b, c'))) => (c', log, Some (OutBytes b))
      | (log, Ended (Panic w)) => (c, log, Some (OutPanic w))
      | (log, NoRandom) => (c, log, None)
      end
  end.

(** Several clients of one process, each call made on one of them.  The
    struct [Client] (client.rs:22-34) owns all it uses; the operating system is
    all they share. *)
Record world := mkWorld { w_clients : list client; w_log : list request }.
(** [&mut self] of one client among others, src/client.rs:86, 141, 270 *)
Fixpoint put {A : Type} (l : list A) (i : nat) (x : A) : list A :=
  match l, i with
  | [], _ => []
  | _ :: r, O => x :: r
  | y :: r, S i => y :: put r i x
  end.
(** A call of the [i]-th client; [None]: there is no such client.
    src/client.rs:86, 141, 270. *)
Definition w_step (cfg : config) (P : prims) (O : os) (w : world) (i : nat) (k : call)
  : world * option (option out) :=
  match nth_error (w_clients w) i with
  | None => (w, None)
  | Some c => let '(c', log, o) := o_step cfg P O c (w_log w) k in
      (mkWorld (put (w_clients w) i c') log, Some o)
  end.
(** Calls of src/client.rs:86, 141, 270, one after the other *)
Fixpoint w_run (cfg : config) (P : prims) (O : os) (w : world) (s : list (nat * call)) : world :=
  match s with
  | [] => w
  | (i, k) :: s => w_run cfg P O (fst (w_step cfg P O w i k)) s
  end.
(** What happened: for each call the client, the call and what came out.
    src/client.rs:86, 141, 270. *)
Fixpoint w_events (cfg : config) (P : prims) (O : os) (w : world) (s : list (nat * call))
  : list (nat * call * option (option out)) :=
  match s with
  | [] => []
  | (i, k) :: s => let (w', o) := w_step cfg P O w i k in (i, k, o) :: w_events cfg P O w' s
  end.
