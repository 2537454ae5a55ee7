(** Specification vocabulary for what the calls of a client of levels 0 to 2 reveal about its
    password hashes: the points at which it uses DES; and somebody who wants to log on without
    the NT hash, to a server that takes NTLMv1 responses. *)
From Verif Require Import Base Nom Unicode Wire Structures Prims Messages Crypto Client Spec SpecCrypto SpecClient SpecServer SpecQueries SpecForgery.

(** The same primitives with another DES. *)
Definition with_des (P : prims) (D : bytes -> bytes -> bytes) : prims :=
  mkPrims (p_md4 P) (p_md5 P) (p_hmac_md5 P) D (p_rc4_stream P) (p_upper P).

(** MS-NLMP 6, DESL: the three DES keys of a 16-byte hash, of 7 bytes each, and as DES takes
    them, with parity bits. *)
Definition thirds (K : bytes) : list bytes := [sub K 0 7; sub K 7 7; sub K 14 2 ++ zeros 5].
Definition des_keys (K : bytes) : list bytes := map expand_key (thirds K).
(** What a reply to [ch] with the draws [r] encrypts. *)
Definition reply_plain (P : prims) (ch : challenge) (r : entropy) : bytes :=
  v1_plain P (ch_flags ch) (ch_server_challenge ch) (e_client_challenge r).
(** MS-NLMP 3.3.1, LMOWFv1: the two halves of the password that are keys of the LM hash, and
    the hash. *)
Definition lm_halves (P : prims) (pw a b : rstring) : Prop :=
  lm_text P pw (a ++ b) /\ len (utf8 a) = 7 /\ len (utf8 b) = 7.
Definition lm_hash_of (P : prims) (a b : rstring) : bytes := DES P (utf8 a) MAGIC ++ DES P (utf8 b) MAGIC.
(** The points (key, block) at which a client uses DES in the history [h]: to compute the LM
    hash, when it is made; up to level 2 a reply encrypts [reply_plain] under the keys of the NT
    hash and, at level 0 without extended session security, under those of the LM hash. *)
Definition encrypts (P : prims) (level : N) (pw : rstring) (h : list op) (k x : bytes) : Prop :=
  exists a b, lm_halves P pw a b /\
  ((x = MAGIC /\ (k = expand_key (utf8 a) \/ k = expand_key (utf8 b)))
   \/ (level <= 2 /\ exists ch r, answered h ch r /\ x = reply_plain P ch r
       /\ (In k (des_keys (NTOWFv1 P pw))
           \/ (level = 0 /\ ESS (ch_flags ch) = false /\ In k (des_keys (lm_hash_of P a b)))))).

(** ** The game of SpecForgery.v with DES in place of HMAC-MD5 *)
Inductive plan :=
| Give (b : bytes)
| Ask (i : nat) (o : op) (f : out -> plan)
| Encrypt (k x : bytes) (f : bytes -> plan).
(** The calls that were made, the points at which DES was computed and the message sent. *)
Fixpoint attempt (cfg : config) (P : prims) (cs : nat -> client) (s : plan)
    (calls : list (nat * op)) (points : list (bytes * bytes)) : list (nat * op) * list (bytes * bytes) * bytes :=
  match s with
  | Give b => (calls, points, b)
  | Ask i o f => attempt cfg P cs (f (answer cfg P (cs i) (calls_to i calls) o)) (calls ++ [(i, o)]) points
  | Encrypt k x f => attempt cfg P cs (f (p_des P k x)) calls (points ++ [(k, x)])
  end.
(** A server that takes NTLMv1 responses (of 24 bytes). *)
Definition takes_v1 (P : prims) (db : database) (w b : bytes) : bool :=
  (len (field_data b 20) =? 24) && match server P db w b with Some _ => true | None => false end.
(** What the NT response in [b] has to be the encryption of, if [w] was the CHALLENGE message. *)
Definition wanted_plain (P : prims) (w b : bytes) : bytes :=
  v1_plain P (u32_at w 20) (sub w 24 8) (sub (field_data b 12) 0 8).

(** ** What does work *)
(** Giving the challenge of the server to a client of the account, and sending on its reply. *)
Definition relay_v1 (ch : challenge) (r : entropy) : plan :=
  Ask 0 OpNegociate (fun _ => Ask 0 (OpRecvChallenge ch) (fun _ => Ask 0 (OpAuthenticate r) (fun o =>
    Give (match o with OutBytes b => b | _ => [] end)))).
(** Encrypting three times with the NT hash [K]: [cc] stands where a client challenge is
    looked for. *)
Definition hash_message (user dom cc nt : bytes) : bytes :=
  NTLMSSP ++ le32 3
  ++ (le16 24 ++ le16 24 ++ le32 (64 + len dom + len user))
  ++ (le16 24 ++ le16 24 ++ le32 (88 + len dom + len user))
  ++ (le16 (len dom) ++ le16 (len dom) ++ le32 64)
  ++ (le16 (len user) ++ le16 (len user) ++ le32 (64 + len dom))
  ++ zeros 8 ++ zeros 8 ++ zeros 4
  ++ dom ++ user ++ (cc ++ zeros 16) ++ nt.
Definition use_hash (K x user dom cc : bytes) : plan :=
  Encrypt (expand_key (sub K 0 7)) x (fun a => Encrypt (expand_key (sub K 7 7)) x (fun b =>
  Encrypt (expand_key (sub K 14 2 ++ zeros 5)) x (fun c => Give (hash_message user dom cc (a ++ b ++ c))))).
