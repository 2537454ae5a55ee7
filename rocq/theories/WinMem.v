(** src/win.rs with the memory it hands to the security package: which bytes
    and handles have been written, and where the behaviour is undefined in
    Rust.  Win.v is the same code for packages that write everything. *)
From Verif Require Import Base Unicode Win.

(** Why the behaviour is undefined:
    - [UninitHandle]: [assume_init] of a handle nothing was written to (win.rs:56, 133);
    - [BeyondCapacity]: [set_len] with more than the capacity (win.rs:136-139);
    - [UninitBytes]: [set_len] over bytes nothing was written to (win.rs:136-139);
    - [Overrun]: the package wrote beyond the memory it was given. *)
Inductive undefined := UninitHandle | BeyondCapacity | UninitBytes | Overrun.

(** What the package does in a call: its status, the handle it writes ([None]:
    it leaves the place of the handle as it is), the length it leaves in
    [cbBuffer] ([None]: it leaves the capacity that is there) and the bytes it
    writes from the start of the buffer.
    The calls at win.rs:43, 100, 118, 143. *)
Record mreply := mkMreply {
  m_status : N;
  m_handle : option handle;
  m_size : option N;
  m_data : bytes
}.
(** What is called at win.rs:43, 100, 118, 143 *)
Definition mpackage := list call -> mreply.

(** A byte of memory, or memory nothing was written to.
    The vector of win.rs:61 and the places of win.rs:39, 116. *)
Definition memory := list (option N).
(** The package writes from the start of the buffer, win.rs:89 *)
Definition store (data : bytes) (m : memory) : memory := map Some data ++ skipn (length data) m.
(** The first [n] bytes, if all of them were written.
    What win.rs:153, 159 hand out. *)
Fixpoint load (n : nat) (m : memory) : option bytes :=
  match n, m with
  | O, _ => Some []
  | S n, Some x :: m => option_map (cons x) (load n m)
  | S _, _ => None
  end.

(** win.rs:26-32; [output_buffer] is its allocated memory and its length. *)
Record mem_client := mkMem {
  mc_credentials : handle;
  mc_context : option handle;
  mc_target : bytes;
  mc_memory : memory;
  mc_len : N
}.

(** The end of a call: undefined behaviour, or a result.
    win.rs:57, 133, 138 are the places where it may be undefined. *)
Inductive effect (A : Type) := Undef (u : undefined) | Fine (a : A).
Arguments Undef {A} u.
Arguments Fine {A} a.

(** win.rs:37-63, [WinClient::new].  [Vec::with_capacity] allocates at least
    the number of bytes asked for: [cap] is what it allocates. *)
Definition mem_new (pkg : mpackage) (cap : nat) (log : list call) (target : rstring)
  : list call * effect (mem_client + win_error) :=
  if existsb (N.eqb 0) (utf8 target) then (log, Fine (inr NulError))
  else
    let log := AcquireCredentials SECURITY_PACKAGE :: log in
    let r := pkg log in
    if failure (m_status r) then (log, Fine (inr (StatusError (m_status r))))
    else match m_handle r with
         | None => (log, Undef UninitHandle)
         | Some h => (log, Fine (inl (mkMem h None (utf8 target) (repeat None cap) 0)))
         end.

(** win.rs:65-147, [initialize_security_context].  With a context, its place
    is also the one for the new context (105); without, that place is a fresh
    one (114, 133).  [expect] at 86 does not fail on capacities below 2^32,
    nor does [unwrap] at 138 where [usize] has 32 bits or more. *)
Definition mem_initialize (pkg : mpackage) (log : list call) (w : mem_client) (input : option bytes)
  : list call * effect (mem_client * (bool + win_error)) :=
  let cap := length (mc_memory w) in
  let log := InitContext (mc_credentials w) (mc_context w) (mc_target w) (option_map seen input) (N.of_nat cap) :: log in
  let r := pkg log in
  if (cap <? length (m_data r))%nat then (log, Undef Overrun)
  else
    let mem := store (m_data r) (mc_memory w) in
    match match m_handle r with Some h => Some h | None => mc_context w end with
    | None => (log, Undef UninitHandle)
    | Some ctx =>
        let size := match m_size r with Some n => n | None => N.of_nat cap end in
        if N.of_nat cap <? size then (log, Undef BeyondCapacity)
        else match load (N.to_nat size) mem with
        | None => (log, Undef UninitBytes)
        | Some token =>
            let done := negb ((m_status r =? SEC_I_CONTINUE_NEEDED) || (m_status r =? SEC_I_COMPLETE_AND_CONTINUE)) in
            if (m_status r =? SEC_I_COMPLETE_NEEDED) || (m_status r =? SEC_I_COMPLETE_AND_CONTINUE)
            then
              let log := CompleteToken ctx token :: log in
              let r' := pkg log in
              if (cap <? length (m_data r'))%nat then (log, Undef Overrun)
              else
                let w := mkMem (mc_credentials w) (Some ctx) (mc_target w) (store (m_data r') mem) size in
                if failure (m_status r') then (log, Fine (w, inr (StatusError (m_status r'))))
                else (log, Fine (w, inl done))
            else (log, Fine (mkMem (mc_credentials w) (Some ctx) (mc_target w) mem size, inl done))
        end
    end.

(** win.rs:149-161, [negotiate] and [challenge]: the bytes of the output
    buffer up to its length. *)
Definition mem_step (cfg : config) (pkg : mpackage) (log : list call) (w : mem_client)
    (input : option bytes) (expected : bool) : list call * effect (mem_client * outcome (bytes + win_error)) :=
  match mem_initialize pkg log w input with
  | (log, Undef u) => (log, Undef u)
  | (log, Fine (w, inr e)) => (log, Fine (w, Val (inr e)))
  | (log, Fine (w, inl done)) =>
      if debug cfg && negb (Bool.eqb done expected) then (log, Fine (w, Panic PDebugAssert))
      else match load (N.to_nat (mc_len w)) (mc_memory w) with
           | None => (log, Undef UninitBytes)
           | Some out => (log, Fine (w, Val (inl out)))
           end
  end.
(** win.rs:149-154 *)
Definition mem_negotiate (cfg : config) (pkg : mpackage) (log : list call) (w : mem_client) :=
  mem_step cfg pkg log w None false.
(** win.rs:156-160 *)
Definition mem_challenge (cfg : config) (pkg : mpackage) (log : list call) (w : mem_client) (message : bytes) :=
  mem_step cfg pkg log w (Some message) true.

(** [WinClient] has no [Drop], nor has [SecHandle], its credentials and
    context: when a client goes out of scope nothing is said to the package.
    win.rs:26-32. *)
Definition mem_drop (log : list call) (w : mem_client) : list call := log.
