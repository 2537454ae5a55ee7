(** What the derived [Debug] forms of the structures look like, written out. *)
From Coq Require Import Ascii String.
From Verif Require Import Base Nom Unicode Wire Structures Prims Messages Crypto Client Debug Log Spec SpecDebug SpecPrint.

(** ** Strings: one piece of text per character, between quotes *)
Definition hex_digit (c : N) : option N :=
  if (48 <=? c) && (c <=? 57) then Some (c - 48)
  else if (97 <=? c) && (c <=? 102) then Some (c - 87) else None.
(** [s] is [n] in lower-case hexadecimal, without leading zeros *)
Inductive hex_numeral : rstring -> N -> Prop :=
| hex_one c d : hex_digit c = Some d -> hex_numeral [c] d
| hex_more s n c d : hex_numeral s n -> n <> 0 -> hex_digit c = Some d -> hex_numeral (s ++ [c]) (16 * n + d).
(** how the character [c] is written *)
Definition written_as (esc : N -> bool) (c : N) (s : rstring) : Prop :=
  if c =? 0 then s = text "\0"
  else if c =? 9 then s = text "\t"
  else if c =? 10 then s = text "\n"
  else if c =? 13 then s = text "\r"
  else if c =? 34 then s = [92; 34]
  else if c =? 92 then s = [92; 92]
  else if esc c then exists h, hex_numeral h c /\ s = text "\u{" ++ h ++ text "}"
  else s = [c].

(** ** Structures *)
Definition listed (l : list rstring) : rstring :=
  match l with [] => text "[]" | s :: r => text "[" ++ s ++ flat_map (fun t => text ", " ++ t) r ++ text "]" end.
Definition truth (b : bool) : rstring := match b with true => text "true" | false => text "false" end.
Definition field_form (f : field) : rstring :=
  text "Field { len: " ++ decimal (f_len f) ++ text ", max_len: " ++ decimal (f_max_len f)
  ++ text ", offset: " ++ decimal (f_offset f) ++ text " }".
Definition filetime_form (t : filetime) : rstring :=
  text "FileTime { low: " ++ decimal (ft_low t) ++ text ", high: " ++ decimal (ft_high t) ++ text " }".
Definition host_form (h : single_host) : rstring :=
  text "SingleHostData { size: " ++ decimal (sh_size h) ++ text ", z4: " ++ decimal (sh_z4 h)
  ++ text ", custom_data: " ++ listed (map decimal (sh_custom h))
  ++ text ", machine_id: " ++ listed (map decimal (sh_machine h)) ++ text " }".
Definition signature_form (g : message_signature) : rstring :=
  text "MessageSignature { random_pad: " ++ hex_of (sg_pad g) ++ text ", checksum: " ++ decimal (sg_checksum g)
  ++ text ", seq_num: " ++ decimal (sg_seq g) ++ text " }".
Definition av_flags_form (f : av_flags) : rstring :=
  text "MsvAvFlags { account_authentication_constrained: " ++ truth (avf_constrained f)
  ++ text ", mic_present: " ++ truth (avf_mic f)
  ++ text ", generated_spn_from_untrusted_source: " ++ truth (avf_untrusted_spn f) ++ text " }".
(** The names of the pair types of MS-NLMP 2.2.2.1, by their number. *)
Definition pair_names : list (N * string) :=
  [(0, "MsvAvEOL"); (1, "MsvAvNbComputerName"); (2, "MsvAvNbDomainName"); (3, "MsvAvDnsComputerName");
   (4, "MsvAvDnsDomainName"); (5, "MsvAvDnsTreeName"); (6, "MsvAvFlags"); (7, "MsvAvTimestamp");
   (8, "MsvAvSingleHost"); (9, "MsvAvTargetName"); (10, "MsvAvChannelBindings")]%string.
(** [q s] stands for the string [s] between quotes *)
Definition pair_form (q : rstring -> rstring) (a : av_pair) : rstring :=
  match a with
  | AvEOL => text "MsvAvEOL"
  | AvNbComputerName s => text "MsvAvNbComputerName(" ++ q s ++ text ")"
  | AvNbDomainName s => text "MsvAvNbDomainName(" ++ q s ++ text ")"
  | AvDnsComputerName s => text "MsvAvDnsComputerName(" ++ q s ++ text ")"
  | AvDnsDomainName s => text "MsvAvDnsDomainName(" ++ q s ++ text ")"
  | AvDnsTreeName s => text "MsvAvDnsTreeName(" ++ q s ++ text ")"
  | AvFlags f => text "MsvAvFlags(" ++ av_flags_form f ++ text ")"
  | AvTimestamp t => text "MsvAvTimestamp(" ++ filetime_form t ++ text ")"
  | AvSingleHost h => text "MsvAvSingleHost(" ++ host_form h ++ text ")"
  | AvTargetName s => text "MsvAvTargetName(" ++ q s ++ text ")"
  | AvChannelBindings b => text "MsvAvChannelBindings(" ++ listed (map decimal b) ++ text ")"
  end.
Definition lm_form (c : lm_challenge) : rstring :=
  match c with
  | LmV1 r => text "V1(Lmv1Challenge { response: " ++ hex_of r ++ text " })"
  | LmV2 r n => text "V2(Lmv2Challenge { response: " ++ hex_of r ++ text ", challenge_from_client: " ++ hex_of n ++ text " })"
  end.
Definition nt_form (q : rstring -> rstring) (c : nt_challenge) : rstring :=
  match c with
  | NtV1 r => text "V1(Ntv1Challenge { response: " ++ hex_of r ++ text " })"
  | NtV2 c => text "V2(Ntv2Challenge { timestamp: " ++ filetime_form (nt_timestamp c)
      ++ text ", challenge_from_client: " ++ hex_of (nt_client_challenge c)
      ++ text ", target_infos: " ++ listed (map (pair_form q) (nt_target_infos c)) ++ text " })"
  end.
