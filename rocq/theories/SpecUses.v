(** Specification vocabulary for all that a client computes with the cryptographic primitives:
    the points at which it uses MD4, MD5 and RC4.  Those of HMAC-MD5 are in SpecQueries.v
    ([asks]), those of DES in SpecBlocks.v ([encrypts]). *)
From Verif Require Import Base Nom Unicode Wire Structures Prims Messages Crypto Client Spec SpecCrypto SpecClient SpecServer SpecQueries SpecForgery SpecBlocks SpecSecrecy.

(** MD4: of the password, when the client is made; and of the NT hash, in a reply of levels 0
    to 2, for the session base key (MS-NLMP 3.3.1). *)
Definition digests4 (P : prims) (level : N) (pw : rstring) (h : list op) (x : bytes) : Prop :=
  x = utf16le pw \/ (level <= 2 /\ x = NTOWFv1 P pw /\ exists ch r, answered h ch r).
(** MD5: of the two challenges, in a reply of levels 0 to 2 with extended session security. *)
Definition digests5 (level : N) (h : list op) (x : bytes) : Prop :=
  level <= 2 /\ exists ch r, answered h ch r /\ ESS (ch_flags ch) = true
    /\ x = ch_server_challenge ch ++ e_client_challenge r.
(** RC4: 16 bytes of key stream, in a reply with key exchange, under the key exchange key. *)
Definition enciphers (cfg : config) (P : prims) (level : N) (user dom pw : rstring) (h : list op) (k : bytes) (n : nat) : Prop :=
  n = 16%nat /\ exists ch r, answered h ch r /\ key_exchange (ch_flags ch) = true
  /\ ((level <= 2 /\ exists a b, lm_halves P pw a b
        /\ k = old_base_key P level (NTOWFv1 P pw) (lm_hash_of P a b) ch r)
      \/ (3 <= level <= 5 /\ exists t, response_time ch r = Some t
           /\ k = base_key_of cfg P (NTOWFv2 P pw user dom) ch r t)).

(** In the world [P'] the primitives have the values they have in [P] wherever the client of
    this account uses them in the history [h]. *)
Definition same_uses (cfg : config) (P P' : prims) (level : N) (user dom pw : rstring) (h : list op) : Prop :=
  (forall x, digests4 P level pw h x -> p_md4 P' x = p_md4 P x)
  /\ (forall x, digests5 level h x -> p_md5 P' x = p_md5 P x)
  /\ (forall k m, asks cfg P level user dom pw h k m -> p_hmac_md5 P' k m = p_hmac_md5 P k m)
  /\ (forall k x, encrypts P level pw h k x -> p_des P' k x = p_des P k x)
  /\ (forall k n, enciphers cfg P level user dom pw h k n -> p_rc4_stream P' k n = p_rc4_stream P k n)
  /\ p_upper P' = p_upper P.
