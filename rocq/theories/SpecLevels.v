(** Specification vocabulary for a client whose [V::version()] changes. *)
From Verif Require Import Base Nom Unicode Wire Structures Prims Messages Crypto Client Spec SpecCrypto SpecClient Levels.

(** What a call returns after the history [h]. *)
Definition v_answer (cfg : config) (P : prims) (V : versions) (c : client) (h : list op) (o : op) : out :=
  snd (v_step cfg P V (v_run cfg P V c h) o).
(** The client after the history [h], and how often it has asked for the version. *)
Definition v_client (cfg : config) (P : prims) (V : versions) (c : client) (h : list op) : client :=
  fst (v_run cfg P V c h).
Definition asked (cfg : config) (P : prims) (V : versions) (c : client) (h : list op) : nat :=
  snd (v_run cfg P V c h).
(** The level of a reply whose call of [send_authenticate] is first answered
    [l1] and then [l2]: at 0, 1 and 2 the second answer decides, and only
    whether it is 0. *)
Definition acts (l1 l2 : N) : N := if l1 <=? 2 then (if l2 =? 0 then 0 else 1) else l1.
