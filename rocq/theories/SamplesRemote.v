(** Samples for what a server can do to a client. *)
From Verif Require Import Base Structures Messages Spec Samples.

(** A challenge with a DNS domain name of [n] letters and nothing unusual otherwise. *)
Definition wordy_challenge (n : N) : challenge :=
  mkChallenge None 537428485 [1; 2; 3; 4; 5; 6; 7; 8]
    [AvDnsDomainName (repeat 97 (N.to_nat n)); AvTimestamp (mkFileTime 5 6); AvEOL] None.
