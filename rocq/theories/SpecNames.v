(** Vocabulary for the names a reply is computed from. *)
From Verif Require Import Base Prims.

(** HMAC-MD5 gives the same for one text under two keys. *)
Definition key_collision (P : prims) (k k' m : bytes) : Prop := k <> k' /\ p_hmac_md5 P k m = p_hmac_md5 P k' m.
