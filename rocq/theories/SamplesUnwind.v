(** Samples for calls that panic half-way. *)
From Verif Require Import Base Nom Unicode Wire Structures Prims Messages Crypto Client Unwind Spec SpecCrypto SpecClient SpecUnwind Samples RealPrims SamplesClient.

(** Standard error is closed; no random bytes; serialisation leaves 1, 2, 3. *)
Definition closed_stderr : mishaps := mkMishaps false false true [].
Definition no_random : mishaps := mkMishaps true false false [].
Definition leaves_bytes : mishaps := mkMishaps false false false [1; 2; 3].
(** A handshake in which two calls panic and the second is repeated. *)
Definition bumpy_history : list (op * mishaps) :=
  [(OpNegociate, closed_stderr); (OpRecvChallenge sealed_challenge, calm);
   (OpAuthenticate sample_entropy, no_random); (OpAuthenticate sample_entropy, calm)].
(** The real primitives with an HMAC that gives zeros, for long names. *)
Definition numb_prims : prims :=
  mkPrims (p_md4 real_prims) (p_md5 real_prims) (fun _ _ => zeros 16) (p_des real_prims)
    (p_rc4_stream real_prims) (p_upper real_prims).
(** A domain of [n] letters, one byte too long to be announced if [n] is 65536. *)
Definition long_domain (n : N) : rstring := repeat 97 (N.to_nat n).
Definition long_client (n : N) : client := bare_client numb_prims 3 str_User (long_domain n) str_Password.
