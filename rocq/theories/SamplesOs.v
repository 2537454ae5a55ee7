(** A sample process with two clients. *)
From Verif Require Import Base Nom Unicode Wire Structures Prims Messages Crypto Client Os Spec SpecCrypto SpecClient SpecOs Samples RealPrims SamplesClient.

(** The source of random bytes that gives 0, 1, 2, ... *)
Definition counting : source := fun p => N.of_nat p mod 256.
(** A clock that stands still. *)
Definition noon : list request -> systime := fun _ => 1577836800500000000%Z.
(** One of level 3, one of level 1. *)
Definition two_clients : world := mkWorld [sample_client 3; sample_client 1] [].
(** Flags as in [sealed_challenge], but no time. *)
Definition timeless_challenge : challenge :=
  mkChallenge (Some str_Server) 1619624501 [1; 35; 69; 103; 137; 171; 205; 239] [AvNbDomainName str_Domain; AvEOL] None.
(** Both negotiate and get a challenge that makes them exchange keys. *)
Definition two_handshakes : list (nat * call) :=
  [(0, Negociate); (1, Reply); (1, Negociate); (1, Receive sealed_challenge); (0, Receive timeless_challenge)]%nat.
(** No random bytes after the first [n] requests. *)
Definition exhausted (n : nat) : os :=
  mkOs (fun log k => if (length log <? n)%nat then Some (from_source counting (taken log) (N.to_nat k)) else None) noon.
