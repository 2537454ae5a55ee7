(** Replies of clients with other account names. *)
From Verif Require Import Base Nom Unicode Wire Structures Prims Messages Crypto Client Spec SpecCrypto SpecClient Samples RealPrims SamplesClient.

(** "USER", "DOMAIN" *)
Definition str_USER : rstring := [85; 83; 69; 82].
Definition str_DOMAIN : rstring := [68; 79; 77; 65; 73; 78].
(** What [bare_client] replies to [ch], on the real primitives. *)
Definition bare_history (ch : challenge) : list op := [OpNegociate; OpRecvChallenge ch].
Definition bare_reply (level : N) (user dom pw : rstring) (ch : challenge) : bytes :=
  match answer cfg_debug real_prims (bare_client real_prims level user dom pw) (bare_history ch) (OpAuthenticate sample_entropy) with
  | OutBytes b => b
  | _ => []
  end.
(** The session key it keeps. *)
Definition bare_key (level : N) (user dom pw : rstring) (ch : challenge) : bytes :=
  match session_key (run cfg_debug real_prims (bare_client real_prims level user dom pw) (bare_history ch ++ [OpAuthenticate sample_entropy])) with
  | Some k => k
  | None => []
  end.
