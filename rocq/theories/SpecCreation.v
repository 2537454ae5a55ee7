(** What creating a client may cost. *)
From Verif Require Import Base Nom Unicode Wire Structures Prims Messages Crypto Client Spec SpecCrypto SpecClient.

(** Upper-casing a character takes at most [k] times the bytes of the character. *)
Definition grows (P : prims) (k : N) : Prop :=
  forall c, is_scalar c -> len (utf8 (p_upper P c)) <= k * len (utf8 [c]).
(** The bytes that name the host: those of the variable, or those of the file. *)
Definition host_bytes (e : environment) : N :=
  match env_COMPUTERNAME e with
  | Some s => len (utf8 s)
  | None => match env_etc_hostname e with Some s => len (utf8 s) | None => 0 end
  end.
