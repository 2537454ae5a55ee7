(** Specification vocabulary for two parties that may run different builds of
    the crate. *)
From Verif Require Import Base Nom Unicode Wire Structures Prims Messages Crypto Client Spec SpecCrypto SpecClient.

(** Calls with arguments that Rust's types allow. *)
Definition typed_op (o : op) : Prop :=
  match o with
  | OpNegociate => True
  | OpRecvChallenge ch => valid_challenge ch
  | OpAuthenticate r => is_entropy r
  end.
(** The same value is returned, or both calls panic. *)
Definition same_out (a b : out) : Prop :=
  match a, b with
  | OutPanic _, OutPanic _ => True
  | _, _ => a = b
  end.

(** A whole logon, the client being a build [cc] of the crate and the server a
    build [cs]: after any calls [h] the client sends a NEGOTIATE, which the
    server reads as [n]; the server sends the challenge [ch], which the client
    reads and accepts; drawing [r], it replies, and the server reads [a].
    After that the client has the session key [K]. *)
Definition logon (cc cs : config) (P : prims) (c : client) (h : list op) (ch : challenge) (r : entropy)
    (n : negotiate) (a : authenticate) (K : bytes) : Prop :=
  exists w1 w2 w3 seen,
    answer cc P c h OpNegociate = OutBytes w1 /\ negotiate_de cs w1 = POk [] n
    /\ serialize cs (challenge_ser cs ch) = Val w2 /\ challenge_de cc w2 = POk [] seen
    /\ answer cc P c (h ++ [OpNegociate; OpRecvChallenge seen]) (OpAuthenticate r) = OutBytes w3
    /\ authenticate_de cs w3 = POk [] a
    /\ session_key (run cc P c (h ++ [OpNegociate; OpRecvChallenge seen; OpAuthenticate r])) = Some K.

(** What a server with the password [pw] checks in a message of levels 3 to 5,
    which has no NTProofStr (C28): the LMv2 response to its challenge [sc]. *)
Definition lmv2_good (P : prims) (sc : bytes) (user dom pw : rstring) (a : authenticate) : Prop :=
  exists cc, len cc = 8 /\ a_lm a = Some (LmV2 (p_hmac_md5 P (NTOWFv2 P pw user dom) (sc ++ cc)) cc).
(** The session key it computes from its own challenge, the password and the message alone. *)
Definition lmv2_key (P : prims) (cs : config) (ch : challenge) (user dom pw : rstring) (a : authenticate) : option bytes :=
  match a_nt a, a_session_key a with
  | Some (NtV2 nt), Some ek =>
      let sbk := v2_session_base_key P (NTOWFv2 P pw user dom) (ch_server_challenge ch) (ntv2_bytes cs nt ++ zeros 4) in
      Some (if key_exchange (ch_flags ch) then RC4K P sbk ek else sbk)
  | _, _ => None
  end.
(** Levels 0 to 2: the NT response, and the key as the crate derives it. *)
Definition nt1_good (P : prims) (ch : challenge) (pw : rstring) (a : authenticate) : Prop :=
  exists lm nt, a_lm a = Some lm /\ a_nt a = Some (NtV1 nt)
    /\ nt = v1_nt_response P (ch_flags ch) (NTOWFv1 P pw) (ch_server_challenge ch) (sub (lm_bytes lm) 0 8).
Definition nt1_key (P : prims) (ch : challenge) (pw : rstring) (a : authenticate) : option bytes :=
  match a_lm a, a_session_key a with
  | Some lm, Some ek =>
      let kek := p_hmac_md5 P (v1_session_base_key P (NTOWFv1 P pw)) (ch_server_challenge ch ++ sub (lm_bytes lm) 0 8) in
      Some (if key_exchange (ch_flags ch) then RC4K P kek ek else kek)
  | _, _ => None
  end.
