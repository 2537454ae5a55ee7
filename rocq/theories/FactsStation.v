(** The workstation name in replies. *)
From Coq Require Import ZifyBool ZifyNat ZifyN.
From Verif Require Import Base Nom Unicode Wire Structures Prims Messages Crypto Client Spec SpecBuild SpecCrypto SpecClient SpecServer SamplesLabour SamplesLmv2 Lib Encode Decode RoundTrip Parse Samples FactsEncode FactsDecode FactsBuild DesKey RealPrims FactsCrypto SamplesClient History Reply FactsClient FactsReply SamplesPlaces FactsPlaces.

(** ** C38 *)
(** Every reply carries the workstation name in UTF-16, and nothing in its place if there is none. *)
Lemma C38_sent_lem : forall cfg P e level user dom pw ws ch r b, host_le cfg = true ->
  replies cfg P e level user dom pw ch r b -> workstation_name P e ws ->
  field_data b 44 = match ws with Some s => utf16le s | None => [] end.
Proof.
  intros cfg P e level user dom pw ws ch r b Hle H W. transitivity (content (opt_map utf16le ws)); [|now destruct ws].
  destruct (N.le_gt_cases level 2) as [L|L].
  - destruct (replies_lm _ _ _ _ _ _ _ _ _ _ H) as [klm K].
    now destruct (C32_ntlmv1_response_lem _ _ _ _ _ _ _ _ _ _ _ _ Hle L W K H) as (_ & _ & _ & _ & E).
  - assert (L3 : 3 <= level) by lia. now destruct (C27_ntlmv2_response_lem _ _ _ _ _ _ _ _ _ _ _ Hle L3 W H) as (t & _ & _ & _ & _ & _ & E).
Qed.
(** "COMPUTER", at levels 0 and 3 *)
Example C38_sent_ex_lem :
  Forall (fun level => replies cfg_debug mixing_prims host_env level str_User str_Domain str_Password sealed_challenge sample_entropy
                         (mixing_reply level str_Password sealed_challenge)
    /\ field_data (mixing_reply level str_Password sealed_challenge) 44 = [67; 0; 79; 0; 77; 0; 80; 0; 85; 0; 84; 0; 69; 0; 82; 0]) [0; 3].
Proof.
  destruct C117_ex_lem as (F & _). pose proof (Forall_inv F) as F0. apply Forall_inv_tail, Forall_inv_tail, Forall_inv, Forall_inv, Forall_inv in F. apply Forall_inv, Forall_inv in F0.
  repeat (apply Forall_cons; [|]); try apply Forall_nil; (split; [assumption|vm_compute; reflexivity]).
Qed.
