(** Specification vocabulary for encoding into arbitrary writers. *)
From Verif Require Import Base Wire Writer.

(** A writer that never gives up: it may take little at a time and be
    interrupted, but it neither fails nor takes nothing. *)
Definition patient (w : writer) : Prop :=
  Forall (fun a => match a with Accept n => 0 < n | Interrupt => True | Fail => False end) (plan w).
(** The writer receives the bytes [b], the count [n] is reported; or an error is
    reported, the writer has received the beginning of [b], and it is one that
    gives up. *)
Definition delivers (g : ioser) (n : N) (b : bytes) : Prop :=
  forall w, exists w', (g w = Val (Some n, w') /\ got w' = got w ++ b)
    \/ (g w = Val (None, w') /\ (exists done rest, b = done ++ rest /\ got w' = got w ++ done) /\ ~ patient w).
(** The count reported is the number of bytes the writer has received. *)
Definition counts_received (g : ioser) : Prop :=
  forall w n w', g w = Val (Some n, w') -> exists b, got w' = got w ++ b /\ n = len b.
(** On a vector, the generic encoder does what the encoder for vectors does. *)
Definition agrees_on_vectors (s : ser) (g : ioser) : Prop :=
  forall v, g (mkWriter v []) =
            match s v with Val (n, v') => Val (Some n, mkWriter v' []) | Panic r => Panic r end.
