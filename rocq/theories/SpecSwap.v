(** Vocabulary for names that a big-endian host writes in AV pairs. *)
From Verif Require Import Base Unicode Structures Messages.

(** A UTF-16 unit with its two bytes exchanged, and text of one-unit characters. *)
Definition swap_unit (c : N) : N := c mod 256 * 256 + c / 256.
Definition swap_text (s : rstring) : rstring := map swap_unit s.
(** An AV pair with its text so changed. *)
Definition swap_pair (a : av_pair) : av_pair :=
  match a with
  | AvNbComputerName s => AvNbComputerName (swap_text s)
  | AvNbDomainName s => AvNbDomainName (swap_text s)
  | AvDnsComputerName s => AvDnsComputerName (swap_text s)
  | AvDnsDomainName s => AvDnsDomainName (swap_text s)
  | AvDnsTreeName s => AvDnsTreeName (swap_text s)
  | AvTargetName s => AvTargetName (swap_text s)
  | _ => a
  end.
(** The challenge with other AV pairs. *)
Definition with_infos (ch : challenge) (l : list av_pair) : challenge :=
  mkChallenge (ch_target_name ch) (ch_flags ch) (ch_server_challenge ch) l (ch_version ch).
(** The same build on a little-endian host. *)
Definition le_host (cfg : config) : config := mkConfig (debug cfg) (strict cfg) (windows cfg) true.
(** The text of an AV pair. *)
Definition text_of (a : av_pair) : rstring :=
  match a with
  | AvNbComputerName s | AvNbDomainName s | AvDnsComputerName s | AvDnsDomainName s
  | AvDnsTreeName s | AvTargetName s => s
  | _ => []
  end.
