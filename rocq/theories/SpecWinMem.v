(** Specification vocabulary for the memory of the Windows client. *)
From Verif Require Import Base Unicode Win SpecWin WinMem.

Definition mem_perform (cfg : config) (pkg : mpackage) (log : list call) (w : mem_client) (o : win_op) :=
  match o with
  | WNegotiate => mem_negotiate cfg pkg log w
  | WChallenge m => mem_challenge cfg pkg log w m
  end.
(** Any sequence of calls, as long as the behaviour is defined. *)
Fixpoint mem_performs (cfg : config) (pkg : mpackage) (log : list call) (w : mem_client) (os : list win_op)
  : list call * effect mem_client :=
  match os with
  | [] => (log, Fine w)
  | o :: os =>
      match mem_perform cfg pkg log w o with
      | (log, Undef u) => (log, Undef u)
      | (log, Fine (w, _)) => mem_performs cfg pkg log w os
      end
  end.
(** A client made by [new], the log being that of [new] alone. *)
Definition mem_made (pkg : mpackage) (cap : nat) (target : rstring) (w : mem_client) : Prop :=
  mem_new pkg cap [] target = ([AcquireCredentials NEGOTIATE_PACKAGE], Fine (inl w)).

(** ** Packages *)
(** How many bytes may be written in a call: those of the buffer, or when a
    token is completed, those of the token. *)
Definition room (c : call) : N :=
  match c with
  | InitContext _ _ _ _ capacity => capacity
  | CompleteToken _ token => len token
  | _ => 0
  end.
(** A reply to [c] that leaves nothing unwritten: a handle, and a length, which is that of the bytes written. *)
Definition written (c : call) (r : mreply) : Prop :=
  len (m_data r) <= room c
  /\ match c with
     | InitContext _ _ _ _ _ => m_handle r <> None /\ m_size r = Some (len (m_data r))
     | AcquireCredentials _ => m_handle r <> None
     | _ => True
     end.
(** A reply to [c] that keeps to the memory it was given. *)
Definition contained (c : call) (r : mreply) : Prop :=
  len (m_data r) <= room c
  /\ match c, m_size r with InitContext _ _ _ _ capacity, Some n => n <= capacity | _, _ => True end.
(** A package that writes everything in every call, failing or not. *)
Definition complete_package (pkg : mpackage) : Prop := forall c log, written c (pkg (c :: log)).
(** The contract of the functions of the package: a call that succeeds writes
    everything; one that fails keeps to its memory, and no more is known. *)
Definition lawful_package (pkg : mpackage) : Prop := forall c log,
  contained c (pkg (c :: log))
  /\ (m_status (pkg (c :: log)) < 2147483648 -> written c (pkg (c :: log))).
(** Failing means the place of the context and the length of the buffer are left alone. *)
Definition silent_failures (pkg : mpackage) : Prop := forall c log,
  2147483648 <= m_status (pkg (c :: log)) -> m_handle (pkg (c :: log)) = None /\ m_size (pkg (c :: log)) = None
    /\ m_data (pkg (c :: log)) = [].
(** What Win.v sees of a package. *)
Definition plain_package (pkg : mpackage) : package := fun log =>
  let r := pkg log in
  mkReply (m_status r) (match m_handle r with Some h => h | None => 0 end) (m_data r).

(** ** Memory *)
(** The first bytes of [m] were written, and are [b]. *)
Definition holds (m : memory) (b : bytes) : Prop := exists rest, m = map Some b ++ rest.
(** The client of Win.v that [w] is, seen without its memory. *)
Definition same_client (w : mem_client) (p : win_client) : Prop :=
  mc_credentials w = w_credentials p /\ mc_context w = w_context p /\ mc_target w = w_target p
  /\ holds (mc_memory w) (w_output p) /\ mc_len w = len (w_output p).
(** The length of the output after a call that was given [capacity] bytes. *)
Definition claimed (r : mreply) (capacity : N) : N :=
  match m_size r with Some n => n | None => capacity end.
(** The call that starts an operation. *)
Definition mem_opening (w : mem_client) (o : win_op) : call :=
  InitContext (mc_credentials w) (mc_context w) (mc_target w)
    (match o with
     | WNegotiate => None
     | WChallenge m => Some (firstn (N.to_nat (len m mod 4294967296)) m)
     end) (N.of_nat (length (mc_memory w))).

(** ** Handles *)
(** The handles given out in the calls of a log, credentials and contexts, and those released. *)
Fixpoint given_out (pkg : mpackage) (log : list call) : list handle :=
  match log with
  | [] => []
  | c :: r =>
      match c with
      | AcquireCredentials _ | InitContext _ _ _ _ _ =>
          match m_handle (pkg log) with Some h => [h] | None => [] end
      | _ => []
      end ++ given_out pkg r
  end.
Definition releases (h : handle) (c : call) : Prop :=
  match c with FreeCredentials h' | DeleteContext h' => h' = h | _ => False end.
