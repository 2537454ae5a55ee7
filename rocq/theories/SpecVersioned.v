(** Specification vocabulary for a client that announces its version. *)
From Verif Require Import Base Nom Unicode Wire Structures Prims Messages Crypto Client Spec SpecCrypto SpecClient.

(** The client [c] with a version set, as the crate's own tests set it
    (client.rs:318); the field is private and [new] leaves it empty. *)
Definition versioned (c : client) (v : version) : client :=
  mkClient (cl_state c) (cl_username c) (cl_lm_hash c) (cl_nt_hash c) (cl_ntlmv2_hash c) (cl_domain c)
    (cl_workstation c) (cl_target c) (cl_buffer c) (Some v) (cl_level c).

(** [b] is the message [b0], whose flags stand at [f] and whose header ends at
    [e], with the version [v] put in at [e]: flag 25 is set, no other flag
    changed, 8 bytes are added, and the fields described at the offsets [os]
    have the same contents. *)
Definition announces (b0 b : bytes) (v : version) (f e : N) (os : list N) : Prop :=
  len b = len b0 + 8
  /\ sub b e 8 = version_bytes v
  /\ (forall i, N.testbit (u32_at b f) i = if i =? 25 then true else N.testbit (u32_at b0 f) i)
  /\ (forall o, In o os -> field_data b o = field_data b0 o).
(** Version 5.1.2600, as in the crate's tests (client.rs:318). *)
Definition windows_xp : version := mkVersion 5 1 2600 15.
