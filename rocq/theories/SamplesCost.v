(** Messages that take work. *)
From Verif Require Import Base Nom Unicode Wire Structures Messages Spec Samples.

(** [n] AV pairs with a name of one letter. *)
Definition busy_pairs (n : nat) : bytes := flat_map (fun _ => [2; 0; 2; 0; 65; 0]) (repeat tt n).
(** The head of an NTLMv2 answer. *)
Definition busy_head : bytes := [1; 1; 0; 0; 0; 0; 0; 0] ++ le32 1 ++ le32 2 ++ repeat 7 8 ++ le32 0.
(** An AUTHENTICATE whose three names are the pairs of its NT response. *)
Definition busy_authenticate (n : nat) : bytes :=
  let d := busy_pairs n in
  let f := le16 (len d) ++ le16 (len d) ++ le32 108 in
  NTLMSSP ++ le32 3 ++ repeat 0 8 ++ (le16 (28 + len d) ++ le16 (28 + len d) ++ le32 80) ++ f ++ f ++ f ++ repeat 0 8
  ++ le32 1 ++ repeat 0 16 ++ busy_head ++ d.
(** The same without names. *)
Definition calm_authenticate (n : nat) : bytes :=
  let d := busy_pairs n in
  NTLMSSP ++ le32 3 ++ repeat 0 8 ++ (le16 (28 + len d) ++ le16 (28 + len d) ++ le32 80) ++ repeat 0 32
  ++ le32 1 ++ repeat 0 16 ++ busy_head ++ d.
