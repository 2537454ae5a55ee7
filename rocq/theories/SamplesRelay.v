(** A second server. *)
From Verif Require Import Base Unicode Wire Structures Messages Spec Samples SamplesClient.

(** The challenge of a server of another name. *)
Definition other_server : challenge :=
  mkChallenge (Some str_COMPUTER) 1619624501 [9; 8; 7; 6; 5; 4; 3; 2] [AvNbComputerName str_COMPUTER; AvEOL] None.
