(** What code outside the crate can do to a challenge: [Challenge::default],
    the public methods of challenge.rs:28-122 and assignments to the public
    fields of challenge.rs:21-25, with values of the types of Rust.  The field
    [target_infos] is [pub(crate)] and the decoder is of a private trait. *)
From Verif Require Import Base Nom Unicode Wire Structures Prims Messages Crypto Client Spec SpecBuild SpecCrypto SpecClient.

Inductive public_op :=
| Method (o : chal_op)
| PutFlags (f : flags)
| PutServerChallenge (b : bytes)
| PutVersion (v : option version).
Definition public_apply (P : prims) (c : challenge) (o : public_op) : challenge :=
  match o with
  | Method o => chal_apply P c o
  | PutFlags f => mkChallenge (ch_target_name c) f (ch_server_challenge c) (ch_target_infos c) (ch_version c)
  | PutServerChallenge b => mkChallenge (ch_target_name c) (ch_flags c) b (ch_target_infos c) (ch_version c)
  | PutVersion v => mkChallenge (ch_target_name c) (ch_flags c) (ch_server_challenge c) (ch_target_infos c) v
  end.
(** the arguments have their types: text is Unicode, integers and arrays have their sizes *)
Definition typed (o : public_op) : Prop :=
  match o with
  | Method (SetTargetName v) => valid_opt is_string v
  | Method (AddComputerName s) | Method (AddDomainName s) | Method (AddDnsComputerName s)
  | Method (AddDnsDomainName s) | Method (AddDnsTreeName s) | Method (AddTargetName s) => is_string s
  | Method (AddFlags _) => True
  | Method (AddTimestamp t) => valid_filetime t
  | Method (AddSingleHost h) => valid_single_host h
  | Method (AddChannelBindings b) => is_buffer 16 b
  | Method (FillFromEnv e) => valid_env e
  | PutFlags f => is_u32 f
  | PutServerChallenge b => is_buffer 8 b
  | PutVersion v => valid_opt valid_version v
  end.
(** [c] can be made outside the crate. *)
Definition makeable (P : prims) (c : challenge) : Prop :=
  exists ops, Forall typed ops /\ c = fold_left (public_apply P) ops challenge_default.
