(** Specification vocabulary for what a reply tells about the session key. *)
From Verif Require Import Base Nom Unicode Wire Structures Prims Messages Crypto Client Spec SpecCrypto SpecClient SpecQueries.

(** Primitives that differ in HMAC-MD5 and RC4 at most. *)
Definition same_but_hmac_rc4 (P P' : prims) : Prop :=
  p_md4 P' = p_md4 P /\ p_md5 P' = p_md5 P /\ p_des P' = p_des P /\ p_upper P' = p_upper P.
(** MS-NLMP 3.3.2: the session base key of a reply of levels 3 to 5 at time [t], which is
    also the key exchange key (3.4.5.1). *)
Definition base_key_of (cfg : config) (P : prims) (k2 : bytes) (ch : challenge) (r : entropy) (t : filetime) : bytes :=
  p_hmac_md5 P k2 (proof_of cfg P k2 ch r t).
(** Under the NTLMv2 key [k2], NTProofStr and the session base key of the reply to [ch] with
    the draws [r] are new: they are none of those of the replies asked for in [h], and
    NTProofStr is not by accident something else that was hashed. *)
Definition unrepeated (cfg : config) (P : prims) (k2 : bytes) (h : list op) (ch : challenge) (r : entropy) (t : filetime) : Prop :=
  ch_server_challenge ch ++ e_client_challenge r <> proof_of cfg P k2 ch r t
  /\ forall ch' r' t', answered h ch' r' -> response_time ch' r' = Some t' ->
       ch_server_challenge ch' ++ e_client_challenge r' <> proof_of cfg P k2 ch r t
       /\ proof_of cfg P k2 ch' r' t' <> proof_of cfg P k2 ch r t
       /\ base_key_of cfg P k2 ch' r' t' <> base_key_of cfg P k2 ch r t.
(** [key] is none of the keys of a client of this account that was called as [h] says. *)
Definition unused_key (cfg : config) (P : prims) (user dom pw : rstring) (h : list op) (key : bytes) : Prop :=
  NTOWFv1 P pw <> key /\ NTOWFv2 P pw user dom <> key
  /\ forall ch r t, answered h ch r -> response_time ch r = Some t ->
       session_key_of cfg P (NTOWFv2 P pw user dom) ch r t <> key.
(** Levels 0 to 2: what a reply hashes under MD4 of the NT hash: the server challenge and the
    first 8 bytes of the LM response. *)
Definition old_key_message (P : prims) (level : N) (nt lm : bytes) (ch : challenge) (r : entropy) : bytes :=
  ch_server_challenge ch
  ++ sub (v1_lm_response P (ch_flags ch) nt lm (ch_server_challenge ch) (e_client_challenge r) (negb (level =? 0))) 0 8.
(** Levels 0 to 2: the key under which a session key is sent, and which is the session key if
    none is sent.  [nt] and [lm] are the two password hashes.  (MS-NLMP 3.4.5.1 has this key
    with EXTENDED_SESSIONSECURITY; the code always uses it, see C30.) *)
Definition old_base_key (P : prims) (level : N) (nt lm : bytes) (ch : challenge) (r : entropy) : bytes :=
  p_hmac_md5 P (v1_session_base_key P nt) (old_key_message P level nt lm ch r).
