(** A client of a big-endian host. *)
From Verif Require Import Base Nom Unicode Wire Structures Prims Messages Crypto Client Spec SpecCrypto SpecClient Samples RealPrims SamplesClient SamplesNames.

(** [bare_client], its reply to [ch] and its session key on a big-endian host. *)
Definition far_client (level : N) (user dom pw : rstring) : client :=
  match new_with_domain cfg_big_endian real_prims bare_env level user dom pw [] with
  | Val c => c
  | Panic _ => sample_client level
  end.
Definition far_reply (level : N) (user dom pw : rstring) (ch : challenge) : bytes :=
  match answer cfg_big_endian real_prims (far_client level user dom pw) (bare_history ch) (OpAuthenticate sample_entropy) with
  | OutBytes b => b
  | _ => []
  end.
Definition far_key (level : N) (user dom pw : rstring) (ch : challenge) : bytes :=
  match session_key (run cfg_big_endian real_prims (far_client level user dom pw) (bare_history ch ++ [OpAuthenticate sample_entropy])) with
  | Some k => k
  | None => []
  end.
(** Two characters whose two bytes are the same: U+4E4E, U+FDFD. *)
Definition str_palindromes : rstring := [20046; 65021].
(** The client was made with these arguments and has replied. *)
Definition far_concluded (level : N) (user dom pw : rstring) (ch : challenge) : Prop :=
  made cfg_big_endian real_prims bare_env level user dom pw [] (far_client level user dom pw)
  /\ concludes cfg_big_endian real_prims (far_client level user dom pw) (bare_history ch) ch sample_entropy
       (far_reply level user dom pw ch) (far_key level user dom pw ch).
