(** Specification vocabulary for what the security package is told. *)
From Verif Require Import Base Unicode Win SpecWin.

(** The rounds of a conversation, the first one first: the context the package was given, and
    the message. *)
Fixpoint rounds (log : list call) : list (option handle * option bytes) :=
  match log with
  | [] => []
  | InitContext _ ctx _ input _ :: r => rounds r ++ [(ctx, input)]
  | _ :: r => rounds r
  end.
(** The message that the user of the client means the package to see. *)
Definition meant (o : win_op) : option bytes :=
  match o with WNegotiate => None | WChallenge m => Some m end.
(** The package is asked to begin a conversation. *)
Definition begins (x : option handle * option bytes) : bool := match fst x with None => true | Some _ => false end.
