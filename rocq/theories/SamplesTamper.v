(** A client on another machine. *)
From Verif Require Import Base Nom Unicode Wire Structures Prims Messages Crypto Client Spec SpecCrypto SpecClient Samples RealPrims SamplesClient.

(** The host name "B". *)
Definition other_env : environment := mkEnv (Some [66]) None None None None.
(** [sample_client] on that machine. *)
Definition other_client (level : N) : client :=
  match new_with_domain cfg_debug real_prims other_env level str_User str_Domain str_Password str_target with
  | Val c => c
  | Panic _ => mkClient StNew [] [] [] [] [] None [] [] None 0
  end.
Definition other_reply (level : N) (ch : challenge) : bytes :=
  match answer cfg_debug real_prims (other_client level) (sample_history ch) (OpAuthenticate sample_entropy) with
  | OutBytes b => b
  | _ => []
  end.
