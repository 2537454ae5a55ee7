(** What the derived [Debug] forms look like. *)
From Coq Require Import Ascii String.
From Verif Require Import Base Nom Unicode Wire Structures Prims Messages Crypto Client Debug Log Print Spec SpecDebug.

(** ** Values inside: [x] stands for a printed value *)
Definition some_or_none (x : option rstring) : rstring :=
  match x with Some s => text "Some(" ++ s ++ text ")" | None => text "None" end.
(** two lower-case hexadecimal digits per byte *)
Definition hex_of (b : bytes) : rstring := flat_map two_digits b.
(** the names of the set bits, from bit 31 down *)
Definition names_of (f : N) : rstring :=
  bar_separated (map (fun b => text (snd b)) (filter (fun b => N.testbit f (fst b)) flag_names)).
Definition version_form (v : version) : rstring :=
  text "Version { major: " ++ decimal (v_major v) ++ text ", minor: " ++ decimal (v_minor v) ++ text ", build: "
  ++ decimal (v_build v) ++ text ", revision_count: " ++ decimal (v_revision v) ++ text " }".
(** a string of characters that need no escaping *)
Definition quoted (s : rstring) : rstring := [34] ++ s ++ [34].
Definition needs_no_escape (esc : N -> bool) (c : N) : Prop :=
  esc c = false /\ ~ In c [0; 9; 10; 13; 34; 92].

(** ** Characters of printed forms: printable ASCII, and characters which are not escaped *)
Definition one_line_char (esc : N -> bool) (c : N) : Prop :=
  32 <= c <= 126 \/ (esc c = false /\ c <> 0 /\ c <> 9 /\ c <> 10 /\ c <> 13).

(** [s] occurs in [t] *)
Definition occurs (s t : rstring) : Prop := exists a b, t = a ++ s ++ b.

(** ** The states a client can be in, with valid messages *)
Definition valid_state (s : client_state) : Prop :=
  match s with
  | StNew => True
  | StNegotiateSent n => valid_negotiate n
  | StChallengeReceived n c => valid_negotiate n /\ valid_challenge c
  | StAuthenticateSent n c a => valid_negotiate n /\ valid_challenge c /\ valid_authenticate a
  end.
