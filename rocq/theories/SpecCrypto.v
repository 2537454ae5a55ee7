(** Specification vocabulary for the cryptographic part, written from MS-NLMP
    3.3 and 3.4.5.1, MS-DTYP 2.3.3 and FIPS 46-3 over the primitives of
    [prims] (MD4, MD5, HMAC_MD5, DES, RC4K).  [Z(n)] is [zeros n], [K[a..b]]
    is [sub K a (b - a + 1)]. *)
From Verif Require Import Base Nom Unicode Wire Structures Prims Messages Spec.

(** ** DES keys (FIPS 46-3): 56 key bits, most significant first, in eight
    bytes of seven bits and one parity bit each. *)
Definition msb_bits (x : N) : list bool := map (N.testbit x) [7; 6; 5; 4; 3; 2; 1; 0].
Definition bits_value (l : list bool) : N :=
  fold_left (fun n (b : bool) => 2 * n + bit b) l 0.
Definition odd_number (l : list bool) : bool := fold_left xorb l false.
(** The seven bits of a byte, completed to an odd number of ones. *)
Definition parity_byte (seven : list bool) : N := bits_value (seven ++ [negb (odd_number seven)]).
Fixpoint sevens (n : nat) (l : list bool) : list (list bool) :=
  match n with O => [] | S n => firstn 7 l :: sevens n (skipn 7 l) end.
Definition expand_key (key7 : bytes) : bytes := map parity_byte (sevens 8 (flat_map msb_bits key7)).

(** ** MS-NLMP 6 (Appendix A) and 3.3: DES with a 7-byte key, DESL *)
Definition DES (P : prims) (K D : bytes) : bytes := p_des P (expand_key K) D.
Definition DESL (P : prims) (K D : bytes) : bytes :=
  DES P (sub K 0 7) D ++ DES P (sub K 7 7) D ++ DES P (sub K 14 2 ++ zeros 5) D.

(** ** MS-NLMP 3.3.1 NTLM v1, one-way functions *)
Definition is_ascii (s : rstring) : Prop := Forall (fun c => c < 128) s.
(** An ASCII password in upper case, cut or filled with NUL to 14 bytes. *)
Definition oem14 (pw : rstring) : bytes := firstn 14 (map upper_ascii pw ++ zeros 14).
(** "KGS!@#$%" *)
Definition MAGIC : bytes := [75; 71; 83; 33; 64; 35; 36; 37].
Definition LMOWFv1 (P : prims) (pw : rstring) : bytes :=
  DES P (sub (oem14 pw) 0 7) MAGIC ++ DES P (sub (oem14 pw) 7 7) MAGIC.
Definition NTOWFv1 (P : prims) (pw : rstring) : bytes := p_md4 P (utf16le pw).
(** 3.3.2 NTLM v2 *)
Definition NTOWFv2 (P : prims) (pw user dom : rstring) : bytes :=
  p_hmac_md5 P (NTOWFv1 P pw) (utf16le (to_uppercase P user ++ dom)).

(** Passwords the LM hash of the crate accepts: brought to upper case (if 14
    bytes or longer in UTF-8, only the first 14, which must end between two
    characters) and filled with NUL, the text must consist of two halves of
    exactly 7 bytes. *)
Definition lm_text (P : prims) (pw t : rstring) : Prop :=
  (len (utf8 pw) < 14 /\ t = to_uppercase P pw ++ repeat 0 (14 - length (utf8 (to_uppercase P pw))))
  \/ (14 <= len (utf8 pw)
      /\ exists p q, pw = p ++ q /\ len (utf8 p) = 14 /\ t = to_uppercase P p).
Definition lm_hashable (P : prims) (pw : rstring) : Prop :=
  exists a b, lm_text P pw (a ++ b) /\ len (utf8 a) = 7 /\ len (utf8 b) = 7.

(** ** MS-NLMP 3.3.1 ComputeResponse, NTLM v1.  [ESS]: the flag
    EXTENDED_SESSIONSECURITY (bit 19) is set.  [nolm]: NoLMResponseNTLMv1. *)
Definition ESS (f : flags) : bool := N.testbit f 19.
Definition v1_nt_response (P : prims) (f : flags) (knt sc cc : bytes) : bytes :=
  if ESS f then DESL P knt (sub (p_md5 P (sc ++ cc)) 0 8) else DESL P knt sc.
Definition v1_lm_response (P : prims) (f : flags) (knt klm sc cc : bytes) (nolm : bool) : bytes :=
  if ESS f then cc ++ zeros 16
  else if nolm then v1_nt_response P f knt sc cc
  else DESL P klm sc.
Definition v1_session_base_key (P : prims) (knt : bytes) : bytes := p_md4 P knt.

(** ** MS-NLMP 3.3.2 ComputeResponse, NTLM v2.  [temp] with its final Z(4). *)
Definition v2_temp (cfg : config) (time : filetime) (cc : bytes) (infos : list av_pair) : bytes :=
  [1; 1] ++ zeros 6 ++ filetime_bytes time ++ cc ++ zeros 4 ++ av_list_bytes cfg infos ++ zeros 4.
Definition v2_nt_proof (P : prims) (knt sc temp : bytes) : bytes := p_hmac_md5 P knt (sc ++ temp).
Definition v2_nt_response (P : prims) (knt sc temp : bytes) : bytes := v2_nt_proof P knt sc temp ++ temp.
Definition v2_lm_response (P : prims) (klm sc cc : bytes) : bytes := p_hmac_md5 P klm (sc ++ cc) ++ cc.
Definition v2_session_base_key (P : prims) (knt sc temp : bytes) : bytes :=
  p_hmac_md5 P knt (v2_nt_proof P knt sc temp).

(** ** MS-NLMP 3.4.5.1 KXKEY, NTLM v1 (for NTLM v2 the key exchange key is the
    session base key).  Bit 7: LM_KEY, bit 22: REQUEST_NON_NT_SESSION_KEY. *)
Definition KXKEY (P : prims) (f : flags) (sbk lmresp sc lmowf : bytes) : bytes :=
  if ESS f then p_hmac_md5 P sbk (sc ++ sub lmresp 0 8)
  else if N.testbit f 7 then
    DES P (sub lmowf 0 7) (sub lmresp 0 8)
    ++ DES P (sub lmowf 7 1 ++ repeat 189 6) (sub lmresp 0 8)
  else if N.testbit f 22 then sub lmowf 0 8 ++ zeros 8
  else sbk.

(** RC4K(K, D): xor with the key stream. *)
Definition RC4K (P : prims) (K D : bytes) : bytes :=
  map (fun p => N.lxor (fst p) (snd p)) (combine D (p_rc4_stream P K (length D))).

(** MS-NLMP 3.1.5.1.2: when the exported session key is a fresh random key
    sent encrypted.  Bits 30: KEY_EXCH, 4: SIGN, 5: SEAL. *)
Definition key_exchange (f : flags) : bool :=
  N.testbit f 30 && (N.testbit f 4 || N.testbit f 5).

(** ** Times *)
(** The whole seconds of a non-negative system time (in nanoseconds since 1970). *)
Definition seconds (t : systime) : N := Z.to_N (t / 1000000000).
(** MS-DTYP 2.3.3: 100 ns intervals since 1601-01-01, which precedes 1970 by
    11644473600 seconds. *)
Definition windows_filetime (t : systime) : Z := ((t + 11644473600 * 1000000000) / 100)%Z.
(** The system times a Windows host can represent. *)
Definition host_time (cfg : config) (t : systime) : Prop :=
  windows cfg = true -> ((t + 11644473600 * 1000000000) / 100 <= 9223372036854775807)%Z.

(** AV pairs that hold no text. *)
Definition no_text (a : av_pair) : Prop :=
  match a with
  | AvNbComputerName _ | AvNbDomainName _ | AvDnsComputerName _ | AvDnsDomainName _
  | AvDnsTreeName _ | AvTargetName _ => False
  | _ => True
  end.
