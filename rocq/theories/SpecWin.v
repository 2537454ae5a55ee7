(** Specification vocabulary for the Windows client. *)
From Verif Require Import Base Unicode Win.

(** What a user may call on a client. *)
Inductive win_op := WNegotiate | WChallenge (message : bytes).
Definition perform (cfg : config) (pkg : package) (log : list call) (w : win_client) (o : win_op) :=
  match o with
  | WNegotiate => win_negotiate cfg pkg log w
  | WChallenge m => win_challenge cfg pkg log w m
  end.
(** Any sequence of them, whatever each of them returns. *)
Fixpoint performs (cfg : config) (pkg : package) (log : list call) (w : win_client) (os : list win_op)
  : list call * win_client :=
  match os with
  | [] => (log, w)
  | o :: os => let '(log, w, _) := perform cfg pkg log w o in performs cfg pkg log w os
  end.
(** "Negotiate" *)
Definition NEGOTIATE_PACKAGE : bytes := [78; 101; 103; 111; 116; 105; 97; 116; 101].
(** A client made by [new] over the package, the log being that of [new] alone. *)
Definition win_made (pkg : package) (target : rstring) (w : win_client) : Prop :=
  win_new pkg [] target = ([AcquireCredentials NEGOTIATE_PACKAGE], inl w).

(** Reading a log, the most recent call first: the context the package handed
    out last. *)
Fixpoint last_context (pkg : package) (log : list call) : option handle :=
  match log with
  | [] => None
  | InitContext _ _ _ _ _ :: _ => Some (out_handle (pkg log))
  | _ :: r => last_context pkg r
  end.
(** The package wants the token completed. *)
(** (SEC_I_COMPLETE_NEEDED 0x00090313, SEC_I_COMPLETE_AND_CONTINUE 0x00090314.) *)
Definition wants_completion (st : N) : Prop := st = 590611 \/ st = 590612.
(** The package wants a further round. *)
(** (SEC_I_CONTINUE_NEEDED 0x00090312, SEC_I_COMPLETE_AND_CONTINUE 0x00090314.) *)
Definition wants_more (st : N) : Prop := st = 590610 \/ st = 590612.
(** A conversation conducted properly: credentials are acquired once, first;
    each call passes those credentials, the target of the client, and the context
    handed out by the call before; a token is completed right after the call
    that produced it, under its context, and only when the package asked for it. *)
Fixpoint proper (pkg : package) (cred : handle) (target : bytes) (log : list call) : Prop :=
  match log with
  | [] => False
  | c :: r =>
      match c with
      | AcquireCredentials name => r = [] /\ name = NEGOTIATE_PACKAGE /\ out_handle (pkg log) = cred /\ failure (status (pkg log)) = false
      | InitContext cr ctx t _ _ => proper pkg cred target r /\ cr = cred /\ t = target /\ ctx = last_context pkg r
      | CompleteToken ctx tok =>
          proper pkg cred target r /\ Some ctx = last_context pkg r
          /\ match r with
             | InitContext _ _ _ _ _ :: _ => wants_completion (status (pkg r)) /\ tok = out_token (pkg r)
             | _ => False
             end
      | FreeCredentials _ | DeleteContext _ => False
      end
  end.

(** The call with which every operation starts: the credentials, context and
    target of the client, the message given (its length is passed as 32 bits)
    and room for 12000 bytes. *)
Definition opening (w : win_client) (o : win_op) : call :=
  InitContext (w_credentials w) (w_context w) (w_target w)
    (match o with
     | WNegotiate => None
     | WChallenge m => Some (firstn (N.to_nat (len m mod 4294967296)) m)
     end) 12000.
