(** Concrete values for the examples about responses worked out beforehand.  No part of the code
    is modelled here. *)
From Verif Require Import Base Nom Unicode Wire Structures Prims Messages Crypto Client Spec SpecClient Samples SamplesClient SamplesPlaces.

(** What the sample client, with the password "Password", sends to a challenge under a draw *)
Definition drawn_reply (level : N) (ch : challenge) (r : entropy) : bytes :=
  match answer cfg_debug mixing_prims (mixing_client level str_Password) (sample_history ch) (OpAuthenticate r) with
  | OutBytes b => b
  | _ => []
  end.
