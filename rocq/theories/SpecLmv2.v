(** A server that judges the LM response too, as MS-NLMP 3.2.5.1.2 allows for
    NTLM v2: it has sent the CHALLENGE message [w] and receives the AUTHENTICATE
    message [b].  It reads both by byte offsets.  An LMv2 response is 24 bytes,
    16 of HMAC and then the client challenge (2.2.2.4, 3.3.2). *)
From Verif Require Import Base Nom Unicode Wire Structures Prims Messages Crypto Client Spec SpecCrypto SpecServer.

Definition lmv2_right (P : prims) (sc : bytes) (a : account) (lm : bytes) : bool :=
  (len lm =? 24)
  && beq_bytes (sub lm 0 16) (p_hmac_md5 P (NTOWFv2 P (acc_password a) (acc_user a) (acc_domain a)) (sc ++ sub lm 16 8)).
Definition takes_lmv2 (P : prims) (db : database) (w b : bytes) : bool :=
  beq_bytes (sub b 0 8) NTLMSSP && (u32_at b 8 =? 3)
  && match db (field_data b 36) (field_data b 28) with
     | None => false
     | Some a => lmv2_right P (sub w 24 8) a (field_data b 12)
     end.
(** It takes one response or the other. *)
Definition logs_on (P : prims) (db : database) (w b : bytes) : bool :=
  match server P db w b with Some _ => true | None => takes_lmv2 P db w b end.
(** Two texts with one HMAC under one key. *)
Definition hmac_collision (P : prims) (k : bytes) : Prop :=
  exists x y, x <> y /\ len x = 16 /\ len y = 16 /\ p_hmac_md5 P k x = p_hmac_md5 P k y.
