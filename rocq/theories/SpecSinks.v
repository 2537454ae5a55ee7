(** Specification vocabulary for printing to formatters that may fail. *)
From Verif Require Import Base Unicode Sinks.

(** [fmt] prints [t] to any sink: all its calls succeed, the sink has received
    [t], and [Ok] is returned; or some call fails, an error is returned, the sink has
    received a beginning of [t], and it is called no more. *)
Definition prints (fmt : sink -> bool * sink) (t : rstring) : Prop :=
  forall s, exists ok s', fmt s = (ok, s') /\ exists used, s_plan s = used ++ s_plan s' /\
    if ok then s_got s' = s_got s ++ t /\ Forall (fun a => a = Takes) used
    else (exists before k, used = before ++ [Breaks k] /\ Forall (fun a => a = Takes) before)
         /\ exists done rest, t = done ++ rest /\ s_got s' = s_got s ++ done.
