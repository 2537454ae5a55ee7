(** Replies with key exchange, with and without EXTENDED_SESSIONSECURITY. *)
From Verif Require Import Base Nom Unicode Wire Structures Prims Messages Crypto Client Spec SpecCrypto SpecClient Samples SamplesClient SamplesLabour SamplesLmv2 SamplesTiming SpecTrace SpecQueries SamplesPlaces SamplesQueries.

(** UNICODE, NTLM, SIGN, SEAL and KEY_EXCH, no EXTENDED_SESSIONSECURITY *)
Definition plain_challenge : challenge :=
  mkChallenge None 1073742385 [1; 35; 69; 103; 137; 171; 205; 239] [] None.
(** The same with ALWAYS_SIGN *)
Definition signed_challenge : challenge :=
  mkChallenge None 1073775153 [1; 35; 69; 103; 137; 171; 205; 239] [] None.
(** Other draws, later *)
Definition second_entropy : entropy :=
  mkEntropy [9; 9; 9; 9; 9; 9; 9; 9] (repeat 51 16) (e_clock sample_entropy).
(** Cheap primitives whose HMAC depends on the whole message *)
Definition adding_prims : prims :=
  mkPrims (p_md4 mixing_prims) (p_md5 mixing_prims) (fun k m => mix_hmac k (fold_left N.add m 0 :: m)) (p_des mixing_prims)
    (p_rc4_stream mixing_prims) (p_upper mixing_prims).
Definition adding_client (level : N) : client :=
  match new_with_domain cfg_debug adding_prims host_env level str_User str_Domain str_Password str_target with
  | Val c => c
  | Panic _ => mkClient StNew [] [] [] [] [] None [] [] None 0
  end.
Definition drawn_reply (level : N) (ch : challenge) (r : entropy) : bytes :=
  match answer cfg_debug adding_prims (adding_client level) [OpNegociate; OpRecvChallenge ch] (OpAuthenticate r) with
  | OutBytes b => b
  | _ => []
  end.
