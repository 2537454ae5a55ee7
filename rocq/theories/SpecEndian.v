(** Vocabulary for clients on hosts of either byte order. *)
From Verif Require Import Base Unicode Prims Spec SpecCrypto.

(** The hashes of MS-NLMP 3.3.1 and 3.3.2, of text in the byte order of the host. *)
Definition host_hash (cfg : config) (P : prims) (pw : rstring) : bytes := p_md4 P (utf16_host cfg pw).
Definition host_hash2 (cfg : config) (P : prims) (pw user dom : rstring) : bytes :=
  p_hmac_md5 P (host_hash cfg P pw) (utf16_host cfg (to_uppercase P user ++ dom)).

(** Text that is the same bytes in both byte orders. *)
Definition both_ways (s : rstring) : Prop := utf16le s = utf16be s.
(** The two bytes of every UTF-16 unit of the character are the same. *)
Definition both_ways_char (c : N) : Prop :=
  if c <? 65536 then c mod 257 = 0
  else (55296 + (c - 65536) / 1024) mod 257 = 0 /\ (56320 + (c - 65536) mod 1024) mod 257 = 0.

(** Two texts with one MD4; two pairs of a key and a text with one HMAC-MD5;
    two hashes under which the three DES encryptions of one block are the same. *)
Definition md4_collision (P : prims) (m m' : bytes) : Prop := m <> m' /\ p_md4 P m = p_md4 P m'.
Definition mac_collision (P : prims) (k m k' m' : bytes) : Prop :=
  ~ (k = k' /\ m = m') /\ p_hmac_md5 P k m = p_hmac_md5 P k' m'.
Definition desl_collision (P : prims) (k k' d : bytes) : Prop := k <> k' /\ DESL P k d = DESL P k' d.
