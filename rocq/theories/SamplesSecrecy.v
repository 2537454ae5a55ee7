(** A client that agrees to two session keys. *)
From Verif Require Import Base Nom Unicode Wire Structures Prims Messages Crypto Client Spec SpecCrypto SpecClient Samples SamplesClient SamplesLabour SamplesLmv2 SamplesTiming SpecTrace SpecQueries SamplesPlaces SamplesQueries SpecSecrecy.

(** Before the first and before the second of its replies *)
Definition no_reply : list op := [OpNegociate; OpRecvChallenge sealed_challenge].
Definition one_reply : list op :=
  [OpNegociate; OpRecvChallenge sealed_challenge; OpAuthenticate sample_entropy; OpNegociate; OpRecvChallenge other_challenge].
Definition mixed_reply (h : list op) : bytes :=
  match answer cfg_debug mixing_prims (mixing_client 3 str_Password) h (OpAuthenticate sample_entropy) with OutBytes b => b | _ => [] end.
Definition mixed_key (h : list op) : bytes :=
  match session_key (run cfg_debug mixing_prims (mixing_client 3 str_Password) (h ++ [OpAuthenticate sample_entropy])) with Some k => k | None => [] end.
(** The same primitives with an MD4 that moves its input *)
Definition moving_prims : prims :=
  mkPrims (fun m => fit 16 (7 :: m)) (p_md5 mixing_prims) (p_hmac_md5 mixing_prims) (p_des mixing_prims) (p_rc4_stream mixing_prims) (p_upper mixing_prims).
(** A client of level 1 *)
Definition moving_client : client :=
  match new_with_domain cfg_debug moving_prims host_env 1 str_User str_Domain str_Password str_target with
  | Val c => c
  | Panic _ => mkClient StNew [] [] [] [] [] None [] [] None 0
  end.
Definition moved_reply (h : list op) : bytes :=
  match answer cfg_debug moving_prims moving_client h (OpAuthenticate sample_entropy) with OutBytes b => b | _ => [] end.
Definition moved_key (h : list op) : bytes :=
  match session_key (run cfg_debug moving_prims moving_client (h ++ [OpAuthenticate sample_entropy])) with Some k => k | None => [] end.
