(** Clients with different passwords whose replies differ wherever they can. *)
From Verif Require Import Base Nom Unicode Wire Structures Prims Messages Crypto Client Spec SpecCrypto SpecClient Samples SamplesClient SamplesLabour SamplesLmv2 SamplesTiming.

(** Cheap primitives all of which depend on their keys *)
Definition fit (n : nat) (b : bytes) : bytes := firstn n (map (fun x => x mod 256) b ++ zeros n).
Definition mix_hmac (k m : bytes) : bytes :=
  fit 16 (map (fun p => 3 * fst p + snd p) (combine (k ++ zeros 16) (m ++ zeros 16))).
Definition mixing_prims : prims :=
  mkPrims head_md4 (fit 16) mix_hmac (fun k m => fit 8 (xor_bytes k m)) (fun k n => fit n k) (p_upper zero_prims).
Definition mixing_client (level : N) (pw : rstring) : client :=
  match new_with_domain cfg_debug mixing_prims host_env level str_User str_Domain pw str_target with
  | Val c => c
  | Panic _ => mkClient StNew [] [] [] [] [] None [] [] None 0
  end.
Definition mixing_reply (level : N) (pw : rstring) (ch : challenge) : bytes :=
  match answer cfg_debug mixing_prims (mixing_client level pw) (sample_history ch) (OpAuthenticate sample_entropy) with
  | OutBytes b => b
  | _ => []
  end.
(** The positions at which two byte strings differ, counted from [i] *)
Fixpoint differences (i : N) (b b' : bytes) : list N :=
  match b, b' with
  | x :: r, y :: r' => if x =? y then differences (i + 1) r r' else i :: differences (i + 1) r r'
  | _, _ => []
  end.
