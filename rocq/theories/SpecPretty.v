(** What the form [{:#?}] looks like, and how to get the form [{:?}] back from it. *)
From Coq Require Import Ascii String.
From Verif Require Import Base Nom Unicode Wire Structures Messages Debug Pretty.

(** ** Lines *)
(** The lines of a text: what stands between the line breaks. *)
Fixpoint split_lines (s : rstring) : list rstring :=
  match s with
  | [] => [[]]
  | c :: r =>
      if c =? 10 then [] :: split_lines r
      else match split_lines r with l :: ls => (c :: l) :: ls | [] => [[c]] end
  end.
Fixpoint join_lines (l : list rstring) : rstring :=
  match l with
  | [] => []
  | [s] => s
  | s :: r => s ++ [10] ++ join_lines r
  end.
(** A line at a depth: four spaces per level. *)
Definition indented (l : nat * rstring) : rstring := repeat 32 (4 * fst l) ++ snd l.

(** ** The layout: depth and text of each line.  [before] and [after] stand on the
    same line as the value: the name of a field, the comma. *)
Fixpoint layout (depth : nat) (before after : rstring) (c : fmt_call) : list (nat * rstring) :=
  match c with
  | Write s => [(depth, before ++ s ++ after)]
  | DebugStruct name [] | DebugTuple name [] => [(depth, before ++ text name ++ after)]
  | DebugList [] => [(depth, before ++ text "[]" ++ after)]
  | DebugStruct name fields =>
      (depth, before ++ text name ++ text " {")
      :: flat_map (fun f => let '(k, v) := f in layout (S depth) (text k ++ text ": ") (text ",") v) fields
      ++ [(depth, text "}" ++ after)]
  | DebugTuple name values =>
      (depth, before ++ text name ++ text "(")
      :: flat_map (layout (S depth) [] (text ",")) values ++ [(depth, text ")" ++ after)]
  | DebugList values =>
      (depth, before ++ text "[") :: flat_map (layout (S depth) [] (text ",")) values ++ [(depth, text "]" ++ after)]
  end.

(** ** Taking the line breaks out again *)
Fixpoint without_indent (s : rstring) : rstring :=
  match s with c :: r => if c =? 32 then without_indent r else s | [] => [] end.
Definition first_is (l : list N) (s : rstring) : bool :=
  match s with c :: _ => existsb (N.eqb c) l | [] => false end.
Definition last_is (l : list N) (s : rstring) : bool := first_is l (rev s).
(** The end of a line [a], when the line [b] follows it on the same line: nothing
    after a round or square bracket, a space after a curly one; a comma before a
    closing bracket goes. *)
Definition continued (a b : rstring) : rstring :=
  if last_is [40; 91] a then a
  else if last_is [44] a && first_is [41; 93] b then removelast a
  else if last_is [44] a && first_is [125] b then removelast a ++ [32]
  else a ++ [32].
Fixpoint one_line (l : list rstring) : rstring :=
  match l with
  | [] => []
  | a :: r => match r with [] => a | b :: _ => continued a b ++ one_line r end
  end.
Definition unbroken (s : rstring) : rstring := one_line (map without_indent (split_lines s)).

(** ** The same message with other strings *)
(** How far a line is indented *)
Definition margin (s : rstring) : nat := length s - length (without_indent s).
Section Strings.
  (** What stands in the place of each string *)
  Context (f : rstring -> rstring).
  Definition put (o : option rstring) : option rstring := match o with Some s => Some (f s) | None => None end.
  Definition av_with_strings (a : av_pair) : av_pair :=
    match a with
    | AvNbComputerName s => AvNbComputerName (f s)
    | AvNbDomainName s => AvNbDomainName (f s)
    | AvDnsComputerName s => AvDnsComputerName (f s)
    | AvDnsDomainName s => AvDnsDomainName (f s)
    | AvDnsTreeName s => AvDnsTreeName (f s)
    | AvTargetName s => AvTargetName (f s)
    | other => other
    end.
  Definition negotiate_with_strings (n : negotiate) : negotiate :=
    mkNegotiate (n_flags n) (put (n_domain n)) (put (n_workstation n)) (n_version n).
  Definition challenge_with_strings (c : challenge) : challenge :=
    mkChallenge (put (ch_target_name c)) (ch_flags c) (ch_server_challenge c) (map av_with_strings (ch_target_infos c)) (ch_version c).
  Definition nt_with_strings (c : nt_challenge) : nt_challenge :=
    match c with
    | NtV1 r => NtV1 r
    | NtV2 c => NtV2 (mkNtv2 (nt_timestamp c) (nt_client_challenge c) (map av_with_strings (nt_target_infos c)))
    end.
  Definition authenticate_with_strings (a : authenticate) : authenticate :=
    mkAuthenticate (a_lm a) (match a_nt a with Some c => Some (nt_with_strings c) | None => None end)
      (put (a_domain a)) (put (a_user a)) (put (a_workstation a)) (a_session_key a) (a_flags a) (a_version a) (a_mic a)
      (a_exported_key a).
End Strings.
