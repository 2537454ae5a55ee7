(** Clients with different passwords and different keys, cheap to compute. *)
From Verif Require Import Base Nom Unicode Wire Structures Prims Messages Crypto Client Spec SpecCrypto SpecClient Samples SamplesClient SamplesLabour SamplesLmv2.

(** MD4 is the beginning of the text. *)
Definition head_md4 (m : bytes) : bytes := firstn 16 (map (fun x => x mod 256) m ++ zeros 16).
Definition head_prims : prims :=
  mkPrims head_md4 (fun _ => zeros 16) xor_hmac (fun _ _ => zeros 8) (fun _ n => zeros n) (p_upper zero_prims).
(** "Passw0rd" and "Secret" *)
Definition str_Passw0rd : rstring := [80; 97; 115; 115; 119; 48; 114; 100].
Definition str_Secret : rstring := [83; 101; 99; 114; 101; 116].
Definition head_client (level : N) (pw target : rstring) : client :=
  match new_with_domain cfg_debug head_prims host_env level str_User str_Domain pw target with
  | Val c => c
  | Panic _ => mkClient StNew [] [] [] [] [] None [] [] None 0
  end.
(** What a call draws besides [sample_entropy], at the same time *)
Definition other_entropy : entropy := mkEntropy (repeat 7 8) (repeat 99 16) (e_clock sample_entropy + 86400000000000)%Z.
