(** Clients with primitives that are easy to compute. *)
From Verif Require Import Base Nom Unicode Wire Structures Prims Messages Crypto Client Spec SpecCrypto SpecClient Samples SamplesClient SamplesLabour.

(** The HMAC is given; all else is zeros. *)
Definition toy_prims (hmac : bytes -> bytes -> bytes) : prims :=
  mkPrims (fun _ => zeros 16) (fun _ => zeros 16) hmac (fun _ _ => zeros 8) (fun _ n => zeros n) (p_upper zero_prims).
(** The HMAC is the xor of the key and the first 16 bytes of the text. *)
Definition xor_hmac (k m : bytes) : bytes :=
  firstn 16 (map (fun p => N.lxor (fst p) (snd p) mod 256) (combine (k ++ zeros 16) (m ++ zeros 16)) ++ zeros 16).
Definition xor_prims : prims := toy_prims xor_hmac.
(** The HMAC begins as an NTLMv2 client challenge does: the bytes
    1, 1, 0, 0, 0, 0, 0, 0 and a time. *)
Definition lucky_prims (t : filetime) : prims := toy_prims (fun _ _ => [1; 1] ++ zeros 6 ++ filetime_bytes t).
Definition toy_client (P : prims) (level : N) : client :=
  match new_with_domain cfg_debug P host_env level str_User str_Domain str_Password str_target with
  | Val c => c
  | Panic _ => mkClient StNew [] [] [] [] [] None [] [] None 0
  end.
(** What it replies. *)
Definition toy_reply (P : prims) (level : N) (ch : challenge) : bytes :=
  match answer cfg_debug P (toy_client P level) (sample_history ch) (OpAuthenticate sample_entropy) with
  | OutBytes b => b
  | _ => []
  end.
