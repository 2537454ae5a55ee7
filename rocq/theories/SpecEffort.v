(** Specification vocabulary for the work of encoding. *)
From Verif Require Import Base Wire Writer.

(** A writer that takes up to [n] bytes, or more, at every call. *)
Definition takes_at_once (n : N) (w : writer) : Prop :=
  Forall (fun a => match a with Accept k => n <= k | _ => False end) (plan w).
