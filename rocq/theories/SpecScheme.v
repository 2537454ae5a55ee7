(** The games of SpecForgery.v and SpecBlocks.v in one: somebody who computes HMACs and DES and
    sends a message to a server that takes every response (NTLMv1, NTLMv2 and LMv2). *)
From Verif Require Import Base Nom Unicode Wire Structures Prims Messages Crypto Client Spec SpecCrypto SpecClient SpecServer SpecLmv2 SpecQueries SpecForgery SpecBlocks.

Inductive scheme :=
| Finish (b : bytes)
| Talk (i : nat) (o : op) (f : out -> scheme)
| Mac (k m : bytes) (f : bytes -> scheme)
| Cipher (k x : bytes) (f : bytes -> scheme).
(** What was done: the calls, the points of HMAC-MD5, the points of DES, the message sent. *)
Record deeds := mkDeeds {
  d_calls : list (nat * op);
  d_macs : list (bytes * bytes);
  d_ciphers : list (bytes * bytes);
  d_sent : bytes
}.
Fixpoint carry_out (cfg : config) (P : prims) (cs : nat -> client) (s : scheme)
    (calls : list (nat * op)) (macs ciphers : list (bytes * bytes)) : deeds :=
  match s with
  | Finish b => mkDeeds calls macs ciphers b
  | Talk i o f => carry_out cfg P cs (f (answer cfg P (cs i) (calls_to i calls) o)) (calls ++ [(i, o)]) macs ciphers
  | Mac k m f => carry_out cfg P cs (f (p_hmac_md5 P k m)) calls (macs ++ [(k, m)]) ciphers
  | Cipher k x f => carry_out cfg P cs (f (p_des P k x)) calls macs (ciphers ++ [(k, x)])
  end.
(** The same primitives with another HMAC-MD5 and another DES. *)
Definition with_both (P : prims) (H D : bytes -> bytes -> bytes) : prims :=
  mkPrims (p_md4 P) (p_md5 P) H D (p_rc4_stream P) (p_upper P).
