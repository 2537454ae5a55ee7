(** Specification vocabulary for comparing clients and their messages. *)
From Verif Require Import Base Nom Unicode Wire Structures Prims Messages Crypto Client Spec SpecCrypto SpecClient.

(** What the calls of a history return, one after the other. *)
Fixpoint transcript (cfg : config) (P : prims) (c : client) (h : list op) : list out :=
  match h with
  | [] => []
  | o :: h => snd (step cfg P c o) :: transcript cfg P (fst (step cfg P c o)) h
  end.
(** Two clients no user can tell apart, whatever is called on both. *)
Definition alike (cfg : config) (P : prims) (c c' : client) : Prop :=
  forall h, transcript cfg P c h = transcript cfg P c' h.

(** A collision of HMAC-MD5 under one key. *)
Definition collision (P : prims) (k m m' : bytes) : Prop := m <> m' /\ p_hmac_md5 P k m = p_hmac_md5 P k m'.

(** The two readings of a 24-byte LM response are the same on the wire. *)
Definition same_lm (x y : option lm_challenge) : Prop := opt_map lm_bytes x = opt_map lm_bytes y.

(** The challenge with other flags. *)
Definition with_flags (ch : challenge) (f : flags) : challenge :=
  mkChallenge (ch_target_name ch) f (ch_server_challenge ch) (ch_target_infos ch) (ch_version ch).
