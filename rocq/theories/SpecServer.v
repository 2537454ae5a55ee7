(** A server written from MS-NLMP 3.2.5.1.2: it has sent the CHALLENGE message
    [w], receives the AUTHENTICATE message [b], and accepts the logon with a
    session key, or not.  It reads both messages by byte offsets and judges the
    NT response alone, as servers do that do not take LM responses. *)
From Verif Require Import Base Nom Unicode Wire Structures Prims Messages Crypto Client Spec SpecCrypto.

Record account := mkAccount {
  acc_user : rstring;
  acc_domain : rstring;
  acc_password : rstring
}.
(** Accounts by user name and domain name, as they are in the message. *)
Definition database := bytes -> bytes -> option account.

(** The session key: with key exchange, the one received, decrypted. *)
Definition server_key (P : prims) (f : flags) (kek b : bytes) : bytes :=
  if key_exchange f then RC4K P kek (field_data b 52) else kek.
(** NTLM v1: [f] and [sc] are the flags and the challenge it has sent. *)
Definition server_v1 (P : prims) (f : flags) (sc : bytes) (a : account) (b : bytes) : option bytes :=
  let lm := field_data b 12 in
  let knt := NTOWFv1 P (acc_password a) in
  if beq_bytes (field_data b 20) (v1_nt_response P f knt sc (sub lm 0 8))
  then Some (server_key P f (KXKEY P f (v1_session_base_key P knt) lm sc (LMOWFv1 P (acc_password a))) b)
  else None.
(** NTLM v2: the response is NTProofStr and temp. *)
Definition server_v2 (P : prims) (f : flags) (sc : bytes) (a : account) (b : bytes) : option bytes :=
  let knt := NTOWFv2 P (acc_password a) (acc_user a) (acc_domain a) in
  let proof := firstn 16 (field_data b 20) in
  let temp := skipn 16 (field_data b 20) in
  if beq_bytes proof (v2_nt_proof P knt sc temp)
  then Some (server_key P f (v2_session_base_key P knt sc temp) b)
  else None.
(** An NT response of 24 bytes is of version 1. *)
Definition server (P : prims) (db : database) (w b : bytes) : option bytes :=
  if beq_bytes (sub b 0 8) NTLMSSP && (u32_at b 8 =? 3) then
    match db (field_data b 36) (field_data b 28) with
    | None => None
    | Some a =>
        if len (field_data b 20) =? 24
        then server_v1 P (u32_at w 20) (sub w 24 8) a b
        else server_v2 P (u32_at w 20) (sub w 24 8) a b
    end
  else None.

(** What the NT response of version 1 encrypts. *)
Definition v1_plain (P : prims) (f : flags) (sc cc : bytes) : bytes :=
  if ESS f then sub (p_md5 P (sc ++ cc)) 0 8 else sc.
(** DES is a permutation under every key (which RealPrims' DES is, DesPerm.v). *)
Definition des_permutes (P : prims) : Prop := forall k a b, is_buffer 8 k -> is_buffer 8 a -> is_buffer 8 b ->
  p_des P k a = p_des P k b -> a = b.

(** ** The MIC as MS-NLMP has it *)
(** MS-NLMP 2.2.1.3: after the flags come 8 bytes for the version, zeros if
    there is none, and then the MIC. *)
Definition standard_mic (b : bytes) : bytes := sub b 72 16.
(** A message of MS-NLMP that has no version. *)
Definition standard_without_version (b : bytes) : Prop :=
  N.testbit (u32_at b 60) 25 = false /\ sub b 64 8 = zeros 8.
(** MS-NLMP 3.1.5.1.2: a client that computes a MIC sets bit 1 of MsvAvFlags. *)
Definition announces_mic (l : list av_pair) : Prop := exists f, In (AvFlags f) l /\ avf_mic f = true.
Definition gives_time (l : list av_pair) : Prop := exists t, In (AvTimestamp t) l.
(** The AV pairs of an NTLMv2 response as the crate writes it, 28 bytes into it (those of
    MS-NLMP have 16 bytes more before them, see C28). *)
Definition carries_infos (cfg : config) (b : bytes) (l : list av_pair) : Prop :=
  Forall valid_av_pair l /\ Forall (carried_av cfg) l /\ skipn 28 (field_data b 20) = av_list_bytes cfg l.
