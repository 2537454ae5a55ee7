(** Specification vocabulary for what the calls of a client reveal about its keys: the points
    at which it asks for an HMAC. *)
From Verif Require Import Base Nom Unicode Wire Structures Prims Messages Crypto Client Spec SpecCrypto SpecClient.

(** The same primitives with another HMAC-MD5. *)
Definition with_hmac (P : prims) (H : bytes -> bytes -> bytes) : prims :=
  mkPrims (p_md4 P) (p_md5 P) H (p_des P) (p_rc4_stream P) (p_upper P).
(** HMAC-MD5 with the value at one point replaced. *)
Definition changed_at (P : prims) (k m v : bytes) : bytes -> bytes -> bytes :=
  fun k' m' => if list_eq_dec N.eq_dec k' k then if list_eq_dec N.eq_dec m' m then v else p_hmac_md5 P k' m'
               else p_hmac_md5 P k' m'.

(** A call with values of their Rust types. *)
Definition typed_call (o : op) : Prop :=
  match o with
  | OpNegociate => True
  | OpRecvChallenge ch => valid_challenge ch
  | OpAuthenticate r => is_entropy r
  end.
(** In the history [h], a reply to the challenge [ch] was asked for, with the draws [r]. *)
Definition answered (h : list op) (ch : challenge) (r : entropy) : Prop :=
  exists h1 h2, h = h1 ++ OpAuthenticate r :: h2 /\ accepts h1 ch.

(** MS-NLMP 3.3.2 and 3.1.5.1.2, for a reply of levels 3 to 5 at time [t]: NTProofStr, and
    the exported session key. *)
Definition proof_of (cfg : config) (P : prims) (k2 : bytes) (ch : challenge) (r : entropy) (t : filetime) : bytes :=
  v2_nt_proof P k2 (ch_server_challenge ch) (v2_temp cfg t (e_client_challenge r) (ch_target_infos ch)).
Definition session_key_of (cfg : config) (P : prims) (k2 : bytes) (ch : challenge) (r : entropy) (t : filetime) : bytes :=
  if key_exchange (ch_flags ch) then e_session_key r else p_hmac_md5 P k2 (proof_of cfg P k2 ch r t).
(** The points (key, message) at which a reply to [ch] uses HMAC-MD5.  With [nt] the NT hash
    and [k2] the NTLMv2 key: up to level 2 the key exchange key; from level 3 the LMv2
    response, NTProofStr, the session base key and the MIC, whose message holds three whole
    messages. *)
Definition reply_asks (cfg : config) (P : prims) (level : N) (nt k2 : bytes) (ch : challenge) (r : entropy)
    (k m : bytes) : Prop :=
  (level <= 2 /\ k = p_md4 P nt /\ exists x, length x = 8%nat /\ m = ch_server_challenge ch ++ x)
  \/ (3 <= level <= 5 /\ exists t, response_time ch r = Some t /\
       ((k = k2 /\ (m = ch_server_challenge ch ++ e_client_challenge r
                    \/ m = ch_server_challenge ch ++ v2_temp cfg t (e_client_challenge r) (ch_target_infos ch)
                    \/ m = proof_of cfg P k2 ch r t))
        \/ (k = session_key_of cfg P k2 ch r t /\ 16 < len m))).
(** The points at which a client uses HMAC-MD5: once when it is made, and in its replies. *)
Definition asks (cfg : config) (P : prims) (level : N) (user dom pw : rstring) (h : list op) (k m : bytes) : Prop :=
  (k = NTOWFv1 P pw /\ m = utf16le (to_uppercase P user ++ dom))
  \/ exists ch r, answered h ch r /\ reply_asks cfg P level (NTOWFv1 P pw) (NTOWFv2 P pw user dom) ch r k m.

(** No 16-byte value the client computed is, by accident, its NTLMv2 key or the message [m]. *)
Definition no_accident (cfg : config) (P : prims) (user dom pw : rstring) (h : list op) (m : bytes) : Prop :=
  NTOWFv1 P pw <> NTOWFv2 P pw user dom
  /\ forall ch r t, answered h ch r -> response_time ch r = Some t ->
       proof_of cfg P (NTOWFv2 P pw user dom) ch r t <> m
       /\ session_key_of cfg P (NTOWFv2 P pw user dom) ch r t <> NTOWFv2 P pw user dom.

(** The password [pw'] and the key [k] do not, by accident, meet the keys the client computed. *)
Definition key_free (cfg : config) (P : prims) (user dom pw pw' : rstring) (h : list op) (k : bytes) : Prop :=
  k <> NTOWFv1 P pw'
  /\ forall ch r t, answered h ch r -> response_time ch r = Some t ->
       session_key_of cfg P (NTOWFv2 P pw user dom) ch r t <> NTOWFv1 P pw'
       /\ session_key_of cfg P (NTOWFv2 P pw user dom) ch r t <> k.
