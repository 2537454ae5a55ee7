(** What somebody who saw a challenge and the reply to it does with a password. *)
From Verif Require Import Base Unicode Wire Prims Spec SpecCrypto SpecClient SpecServer.

(** The response that a user [user] of the domain [dom] with the password [pw] would have sent
    to the challenge [w], with the client challenge of the reply [b]: it is the one of [b].  An
    NTLMv1 response has 24 bytes. *)
Definition guess_fits (P : prims) (w b : bytes) (user dom pw : rstring) : bool :=
  let sc := sub w 24 8 in let lm := field_data b 12 in let nt := field_data b 20 in
  if len nt =? 24
  then beq_bytes nt (v1_nt_response P (u32_at w 20) (NTOWFv1 P pw) sc (sub lm 0 8))
  else beq_bytes lm (v2_lm_response P (NTOWFv2 P pw user dom) sc (sub lm 16 8)).
(** The session key that this user would have. *)
Definition guess_key (P : prims) (w b : bytes) (user dom pw : rstring) : bytes :=
  let sc := sub w 24 8 in let lm := field_data b 12 in let nt := field_data b 20 in
  let base := if len nt =? 24
              then p_hmac_md5 P (v1_session_base_key P (NTOWFv1 P pw)) (sc ++ sub lm 0 8)
              else v2_session_base_key P (NTOWFv2 P pw user dom) sc (nt ++ zeros 4) in
  if key_exchange (u32_at w 20) then RC4K P base (field_data b 52) else base.
