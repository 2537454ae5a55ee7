(** A client to count the work of: the primitives answer with zeros. *)
From Verif Require Import Base Nom Unicode Wire Structures Prims Messages Crypto Client SpecCrypto Samples SamplesClient.

Definition zero_prims : prims :=
  mkPrims (fun _ => zeros 16) (fun _ => zeros 16) (fun _ _ => zeros 16) (fun _ _ => zeros 8)
    (fun _ n => zeros n) (fun c => if c <? 128 then [upper_ascii c] else [c]).
Definition zero_client (level : N) : client :=
  match new_with_domain cfg_debug zero_prims host_env level str_User str_Domain str_Password str_target with
  | Val c => c
  | Panic _ => mkClient StNew [] [] [] [] [] None [] [] None 0
  end.
