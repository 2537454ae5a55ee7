(** The client once more, statement by statement on [&mut self], for callers
    that catch panics (or meet the client again in a destructor).  Client.v
    returns the client as it was when a call panics; here a panicking call
    leaves behind what the statements before it did.  Three things may go wrong
    beside the panics of Client.v: random bytes cannot be had, standard error
    cannot be written to ([dbg!] is [eprintln!], which panics then), and a
    serialisation that panics leaves some bytes in the buffer. *)
From Verif Require Import Base Nom Unicode Wire Structures Messages Prims Crypto Client.

(** Why a call panicked.
    src/client.rs:121, 134, 136, 138, 275, 292. *)
Inductive why :=
| Code (r : panic_reason)   (* a panic of Client.v *)
| NoStderr                  (* std: "failed printing to stderr" *)
| NoRandomBytes.            (* rand_core: [OsRng.fill_bytes] *)

(** What goes wrong during a call.
    src/client.rs:99, 134, 136-137, 271, 292. *)
Record mishaps := mkMishaps {
  m_random : bool;    (* one of the requests for random bytes fails *)
  m_stderr1 : bool;   (* the first line cannot be printed *)
  m_stderr2 : bool;   (* the second one cannot *)
  m_torn : bytes      (* what a serialisation that panics has appended to the buffer *)
}.

(** Code with access to [&mut self]: the client afterwards, and how it ended.
    src/client.rs:86, 141, 270. *)
Inductive ending (A : Type) :=
| Done (a : A)
| Unwound (w : why).
Arguments Done {A} a.
Arguments Unwound {A} w.
(** The body of a method with [&mut self], src/client.rs:86, 141, 270 *)
Definition self_code (A : Type) := client -> client * ending A.
(** One statement after another, src/client.rs:133-138 *)
Definition self_bind {A B : Type} (m : self_code A) (f : A -> self_code B) : self_code B := fun c =>
  match m c with
  | (c, Done a) => f a c
  | (c, Unwound w) => (c, Unwound w)
  end.
Notation "'self' x <- m ; k" := (self_bind m (fun x => k)) (at level 200, x name, m at level 100, k at level 200).
Notation "'do' m ; k" := (self_bind m (fun _ : unit => k)) (at level 200, m at level 100, k at level 200).

(** An expression that only reads [self].
    As at src/client.rs:129. *)
Definition u_read {A : Type} (f : client -> outcome A) : self_code A := fun c =>
  (c, match f c with Val a => Done a | Panic r => Unwound (Code r) end).
(** [self.state = s;].
    src/client.rs:135, 147, 251. *)
Definition u_set_state (s : client_state) : self_code unit := fun c => (with_state c s, Done tt).
(** [std::mem::replace(&mut self.state, s)].
    src/client.rs:145, 249. *)
Definition u_replace_state (s : client_state) : self_code client_state := fun c => (with_state c s, Done (cl_state c)).
(** [self.buffer.clear();].
    src/client.rs:133, 291. *)
Definition u_clear : self_code unit := fun c => (with_buffer c [], Done tt).
(** [msg.serialize_into(&mut self.buffer).unwrap()].
    src/client.rs:134, 292. *)
Definition u_serialize (torn : bytes) (s : ser) : self_code N := fun c =>
  match s (cl_buffer c) with
  | Val (n, b) => (with_buffer c b, Done n)
  | Panic r => (with_buffer c (cl_buffer c ++ torn), Unwound (Code r))
  end.
(** [dbg!(..)].
    src/client.rs:136-137. *)
Definition u_dbg (fails : bool) : self_code unit := fun c => (c, if fails then Unwound NoStderr else Done tt).
(** [unreachable!()].
    src/client.rs:149, 253, 275. *)
Definition u_unreachable {A : Type} : self_code A := fun c => (c, Unwound (Code PUnreachable)).

(** client.rs:86-139 *)
Definition u_send_negociate (m : mishaps) : self_code bytes :=
  self msg <- u_read negociate_message;
  do u_clear;
  self size <- u_serialize (m_torn m) (negotiate_ser msg);
  do u_set_state (StNegotiateSent msg);
  do u_dbg (m_stderr1 m);
  do u_dbg (m_stderr2 m);
  u_read (fun c => slice (cl_buffer c) 0 size).

(** client.rs:141-151 *)
Definition u_recv_challenge (challenge : challenge) : self_code unit := fun c =>
  match cl_state c with
  | StNegotiateSent _ =>
      (self s <- u_replace_state StNew;
       match s with
       | StNegotiateSent negotiate => u_set_state (StChallengeReceived negotiate challenge)
       | _ => u_unreachable
       end) c
  | _ => (c, Done tt)
  end.

(** client.rs:245-255 *)
Definition u_set_authenticated_state (auth : authenticate) : self_code unit := fun c =>
  match cl_state c with
  | StChallengeReceived _ _ =>
      (self s <- u_replace_state StNew;
       match s with
       | StChallengeReceived n ch => u_set_state (StAuthenticateSent n ch auth)
       | _ => u_unreachable
       end) c
  | _ => (c, Done tt)
  end.

(** client.rs:270-276: the two requests for random bytes come before [self] is
    changed; which of them fails makes no difference to the client (their order
    among the other statements is in Os.v). *)
Definition u_build (cfg : config) (P : prims) (m : mishaps) (r : entropy) : self_code authenticate := fun c =>
  if m_random m then (c, Unwound NoRandomBytes) else u_read (fun c => build_authenticate cfg P c r) c.

(** client.rs:270-295 *)
Definition u_send_authenticate (cfg : config) (P : prims) (m : mishaps) (r : entropy) : self_code bytes :=
  self auth <- u_build cfg P m r;
  self auth <- u_read (fun c => Val (finish_authenticate c auth));
  do u_clear;
  self _n <- u_serialize (m_torn m) (authenticate_ser cfg auth);
  do u_set_authenticated_state auth;
  u_read (fun c => Val (cl_buffer c)).

(** A call with what goes wrong in it, and what the caller sees.
    src/client.rs:86, 141, 270. *)
Inductive seen :=
| SeenBytes (b : bytes)
| SeenUnit
| SeenPanic (w : why).
(** One of the calls of src/client.rs:86, 141, 270 *)
Definition u_step (cfg : config) (P : prims) (c : client) (o : op * mishaps) : client * seen :=
  match fst o with
  | OpNegociate =>
      match u_send_negociate (snd o) c with
      | (c, Done b) => (c, SeenBytes b)
      | (c, Unwound w) => (c, SeenPanic w)
      end
  | OpRecvChallenge ch =>
      match u_recv_challenge ch c with
      | (c, Done _) => (c, SeenUnit)
      | (c, Unwound w) => (c, SeenPanic w)
      end
  | OpAuthenticate r =>
      match u_send_authenticate cfg P (snd o) r c with
      | (c, Done b) => (c, SeenBytes b)
      | (c, Unwound w) => (c, SeenPanic w)
      end
  end.
(** The client after a history.
    Calls of src/client.rs:86, 141, 270, one after the other. *)
Definition u_run (cfg : config) (P : prims) (c : client) (h : list (op * mishaps)) : client :=
  fold_left (fun c o => fst (u_step cfg P c o)) h c.
