(** Specification vocabulary for what a server can do to a client. *)
From Verif Require Import Base Unicode Spec.

(** The three names of a reply, in bytes. *)
Definition names_bytes (user dom : rstring) (ws : option rstring) : N :=
  len (utf16le user) + len (utf16le dom) + len (content (opt_map utf16le ws)).
(** Names that a message has room for. *)
Definition names_short (user dom : rstring) (ws : option rstring) : Prop :=
  len (utf16le user) <= 65535 /\ len (utf16le dom) <= 65535 /\ len (content (opt_map utf16le ws)) <= 65535.
