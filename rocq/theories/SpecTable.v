(** Responses worked out before a client is asked. *)
From Verif Require Import Base Unicode Prims Spec SpecCrypto.

(** For each of some passwords, the NTLMv1 response to a challenge without
    EXTENDED_SESSIONSECURITY. *)
Definition table (P : prims) (sc : bytes) (words : list rstring) : list (bytes * rstring) :=
  map (fun pw => (DESL P (NTOWFv1 P pw) sc, pw)) words.
