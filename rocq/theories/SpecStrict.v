(** Specification vocabulary for decoders that check the flags. *)
From Verif Require Import Base Nom Wire SpecBuild Spec.

(** In strict builds the decoder whose result is [checked] rejects a message with a
    forbidden flag word at offset [o]; otherwise it returns what the other one does. *)
Definition also_checks {A : Type} (cfg : config) (b : bytes) (o : N) (checked unchecked : pres A) : Prop :=
  (strict cfg = true -> invalid_flags (u32_at b o) -> checked = PErr EError)
  /\ (strict cfg = false \/ ~ invalid_flags (u32_at b o) -> checked = unchecked).
