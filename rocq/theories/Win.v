(** src/win.rs, the client over the Windows security package (compiled for
    target family windows only, src/lib.rs:9-10). *)
From Verif Require Import Base Unicode.

(** Handles of the package are opaque numbers.
    [SecHandle], win.rs:27-28. *)
Definition handle := N.

(** Calls made to the package.  The arguments that the code always passes the
    same way (request flags, byte order, null pointers, the lifetime that is
    never read) are left out.  The last two, with which a program gives handles
    back to the package, occur nowhere in win.rs. *)
Inductive call :=
| AcquireCredentials (package : bytes)
| InitContext (cred : handle) (context : option handle) (target : bytes) (input : option bytes) (capacity : N)
| CompleteToken (context : handle) (token : bytes)
| FreeCredentials (cred : handle)
| DeleteContext (context : handle).

(** What the package answers: its status, the handle it writes (credentials or
    context) and the bytes it writes to the output buffer.  A package that
    reports failure may leave the handle unwritten: the handle is then any
    value ([assume_init] of uninitialised memory, win.rs:133, is undefined
    behaviour in Rust and is modelled as an arbitrary handle; see WinMem.v). *)
Record reply := mkReply {
  status : N;
  out_handle : handle;
  out_token : bytes
}.
(** The package: its answer to the last call of a log (the most recent call
    first), whatever it did before.  It is assumed to write no more than the
    capacity it is given ([set_len] would be undefined behaviour otherwise).
    What is called at win.rs:43, 100, 118, 143. *)
Definition package := list call -> reply.

(** [HRESULT::ok] of the windows crate: negative codes are errors.
    win.rs:53, 143. *)
Definition failure (st : N) : bool := 2147483648 <=? st.

(** windows::Win32::Foundation.
    win.rs:10, 146. *)
Definition SEC_I_CONTINUE_NEEDED : N := 590610.      (* 0x00090312 *)
(** win.rs:10, 141 *)
Definition SEC_I_COMPLETE_NEEDED : N := 590611.      (* 0x00090313 *)
(** win.rs:10, 141, 146 *)
Definition SEC_I_COMPLETE_AND_CONTINUE : N := 590612. (* 0x00090314 *)

(** win.rs:24 *)
Definition MAX_MESSAGE_SIZE : N := 12000.

(** win.rs:26-32, without [lifetime] *)
Record win_client := mkWin {
  w_credentials : handle;
  w_context : option handle;
  w_target : bytes;
  w_output : bytes
}.

(** win.rs:34: "Negotiate", without the final 0 *)
Definition SECURITY_PACKAGE : bytes := [78; 101; 103; 111; 116; 105; 97; 116; 101].

(** Errors: an interior 0 in the target ([CString::new]), or a status of the package.
    win.rs:38, 53, 143. *)
Inductive win_error := NulError | StatusError (st : N).

(** win.rs:37-63, [WinClient::new]: the log after it, and the client or an error.
    [CString::new] fails when the string contains the char 0. *)
Definition win_new (pkg : package) (log : list call) (target : rstring)
  : list call * (win_client + win_error) :=
  if existsb (N.eqb 0) (utf8 target) then (log, inr NulError)
  else
    let log := AcquireCredentials SECURITY_PACKAGE :: log in
    let r := pkg log in
    if failure (status r) then (log, inr (StatusError (status r)))
    else (log, inl (mkWin (out_handle r) None (utf8 target) [])).

(** win.rs:76-79: the part of the input the package sees ([len() as u32]) *)
Definition seen (b : bytes) : bytes := firstn (N.to_nat (len b mod 4294967296)) b.

(** [CompleteAuthToken] rewrites the token in place; its length stays.
    win.rs:143. *)
Definition rewritten (old new : bytes) : bytes := firstn (length old) (new ++ skipn (length new) old).

(** win.rs:65-147, [initialize_security_context]: the log and the client after
    it, and whether the exchange is finished, or an error.  [expect] at 142
    cannot fail, the context was stored before; [try_into] at 84 and 138 cannot
    fail on the sizes in play. *)
Definition initialize_security_context (pkg : package) (log : list call) (w : win_client) (input : option bytes)
  : list call * win_client * (bool + win_error) :=
  let log := InitContext (w_credentials w) (w_context w) (w_target w) (option_map seen input) MAX_MESSAGE_SIZE :: log in
  let r := pkg log in
  let ctx := out_handle r in
  let w := mkWin (w_credentials w) (Some ctx) (w_target w) (out_token r) in
  let done := negb ((status r =? SEC_I_CONTINUE_NEEDED) || (status r =? SEC_I_COMPLETE_AND_CONTINUE)) in
  if (status r =? SEC_I_COMPLETE_NEEDED) || (status r =? SEC_I_COMPLETE_AND_CONTINUE)
  then
    let log := CompleteToken ctx (out_token r) :: log in
    let r' := pkg log in
    let w := mkWin (w_credentials w) (Some ctx) (w_target w) (rewritten (out_token r) (out_token r')) in
    if failure (status r') then (log, w, inr (StatusError (status r')))
    else (log, w, inl done)
  else (log, w, inl done).

(** win.rs:149-154, [negotiate]; 156-161, [challenge]: the returned bytes are
    those of the output buffer.  After a panic the log and the client are
    those reached. *)
Definition win_step (cfg : config) (pkg : package) (log : list call) (w : win_client)
    (input : option bytes) (expected : bool) : list call * win_client * outcome (bytes + win_error) :=
  match initialize_security_context pkg log w input with
  | (log, w, inr e) => (log, w, Val (inr e))
  | (log, w, inl done) =>
      if debug cfg && negb (Bool.eqb done expected)
      then (log, w, Panic PDebugAssert)
      else (log, w, Val (inl (w_output w)))
  end.
(** win.rs:149-154 *)
Definition win_negotiate (cfg : config) (pkg : package) (log : list call) (w : win_client) :=
  win_step cfg pkg log w None false.
(** win.rs:156-160 *)
Definition win_challenge (cfg : config) (pkg : package) (log : list call) (w : win_client) (message : bytes) :=
  win_step cfg pkg log w (Some message) true.
