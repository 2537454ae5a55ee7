(** The [==] that [#\[derive(PartialEq)\]] makes: fields in the order of their declaration,
    joined by [&&]; for enums the variants first.  Integers and [bool] compare as such. *)
From Verif Require Import Base Nom Unicode Wire Structures Prims Messages.

(** [==] of slices ([\[u8\]], [\[T\]], also behind arrays and [Vec]): the lengths, then the
    elements in order.
    For src/messages/structures.rs:26 and src/messages/challenge.rs:19. *)
Fixpoint all2 {A : Type} (eq : A -> A -> bool) (a b : list A) : bool :=
  match a, b with
  | x :: a', y :: b' => eq x y && all2 eq a' b'
  | _, _ => true
  end.
(** [==] of [\[u8\]], for src/messages/structures.rs:26 *)
Definition slice_eq {A : Type} (eq : A -> A -> bool) (a b : list A) : bool :=
  (length a =? length b)%nat && all2 eq a b.
(** [==] of byte arrays, and of the types that hold one (src/messages/structures.rs:26). *)
Definition buf_eq (a b : bytes) : bool := slice_eq N.eqb a b.
(** [==] of [String]: of its UTF-8 bytes; also of [UnicodeString] and [OEMString]
    (src/messages/unicode_string.rs:14). *)
Definition string_eq (a b : rstring) : bool := buf_eq (utf8 a) (utf8 b).
(** [==] of [Option].
    For src/messages/negotiate.rs:17 and src/messages/challenge.rs:19. *)
Definition option_eq {A : Type} (eq : A -> A -> bool) (a b : option A) : bool :=
  match a, b with
  | Some x, Some y => eq x y
  | None, None => true
  | _, _ => false
  end.

(** src/messages/flags.rs:165-167 *)
Definition flags_eq (a b : flags) : bool := a =? b.
(** src/messages/field.rs:14-19 *)
Definition field_eq (a b : field) : bool :=
  (f_len a =? f_len b) && (f_max_len a =? f_max_len b) && (f_offset a =? f_offset b).
(** src/messages/structures/version.rs:13-19 *)
Definition version_eq (a b : version) : bool :=
  (v_major a =? v_major b) && (v_minor a =? v_minor b) && (v_build a =? v_build b) && (v_revision a =? v_revision b).
(** src/messages/structures/filetime.rs:9-13 *)
Definition filetime_eq (a b : filetime) : bool := (ft_low a =? ft_low b) && (ft_high a =? ft_high b).
(** src/messages/structures/single_host_data.rs:9-15 *)
Definition single_host_eq (a b : single_host) : bool :=
  (sh_size a =? sh_size b) && (sh_z4 a =? sh_z4 b) && buf_eq (sh_custom a) (sh_custom b) && buf_eq (sh_machine a) (sh_machine b).
(** src/messages/structures/signature.rs:10-15 *)
Definition signature_eq (a b : message_signature) : bool :=
  buf_eq (sg_pad a) (sg_pad b) && (sg_checksum a =? sg_checksum b) && (sg_seq a =? sg_seq b).
(** src/messages/structures/avid.rs:18-33: an enum without fields, compared by its numbers *)
Definition av_id_eq (a b : av_id) : bool := av_id_code a =? av_id_code b.
(** src/messages/structures/avid.rs:67-75 *)
Definition av_flags_eq (a b : av_flags) : bool :=
  Bool.eqb (avf_constrained a) (avf_constrained b) && Bool.eqb (avf_mic a) (avf_mic b)
  && Bool.eqb (avf_untrusted_spn a) (avf_untrusted_spn b).
(** src/messages/structures/avid.rs:117-142 *)
Definition av_pair_eq (a b : av_pair) : bool :=
  match a, b with
  | AvEOL, AvEOL => true
  | AvNbComputerName s, AvNbComputerName t | AvNbDomainName s, AvNbDomainName t
  | AvDnsComputerName s, AvDnsComputerName t | AvDnsDomainName s, AvDnsDomainName t
  | AvDnsTreeName s, AvDnsTreeName t | AvTargetName s, AvTargetName t => string_eq s t
  | AvFlags f, AvFlags g => av_flags_eq f g
  | AvTimestamp t, AvTimestamp u => filetime_eq t u
  | AvSingleHost h, AvSingleHost g => single_host_eq h g
  | AvChannelBindings x, AvChannelBindings y => buf_eq x y
  | _, _ => false
  end.
(** src/messages/structures/lm_challenge.rs:16-19, 46-50, 101-105 *)
Definition lm_challenge_eq (a b : lm_challenge) : bool :=
  match a, b with
  | LmV1 x, LmV1 y => buf_eq x y
  | LmV2 x c, LmV2 y d => buf_eq x y && buf_eq c d
  | _, _ => false
  end.
(** src/messages/structures/nt_challenge.rs:37-42 *)
Definition ntv2_eq (a b : ntv2_challenge) : bool :=
  filetime_eq (nt_timestamp a) (nt_timestamp b) && buf_eq (nt_client_challenge a) (nt_client_challenge b)
  && slice_eq av_pair_eq (nt_target_infos a) (nt_target_infos b).
(** src/messages/structures/nt_challenge.rs:15-18, 101-105 *)
Definition nt_challenge_eq (a b : nt_challenge) : bool :=
  match a, b with
  | NtV1 x, NtV1 y => buf_eq x y
  | NtV2 c, NtV2 d => ntv2_eq c d
  | _, _ => false
  end.
(** src/messages/negotiate.rs:17-23 *)
Definition negotiate_eq (a b : negotiate) : bool :=
  flags_eq (n_flags a) (n_flags b) && option_eq string_eq (n_domain a) (n_domain b)
  && option_eq string_eq (n_workstation a) (n_workstation b) && option_eq version_eq (n_version a) (n_version b).
(** src/messages/challenge.rs:19-26 *)
Definition challenge_eq (a b : challenge) : bool :=
  option_eq string_eq (ch_target_name a) (ch_target_name b) && flags_eq (ch_flags a) (ch_flags b)
  && buf_eq (ch_server_challenge a) (ch_server_challenge b)
  && slice_eq av_pair_eq (ch_target_infos a) (ch_target_infos b) && option_eq version_eq (ch_version a) (ch_version b).
(** src/messages/authenticate.rs:23-35 *)
Definition authenticate_eq (a b : authenticate) : bool :=
  option_eq lm_challenge_eq (a_lm a) (a_lm b) && option_eq nt_challenge_eq (a_nt a) (a_nt b)
  && option_eq string_eq (a_domain a) (a_domain b) && option_eq string_eq (a_user a) (a_user b)
  && option_eq string_eq (a_workstation a) (a_workstation b) && option_eq buf_eq (a_session_key a) (a_session_key b)
  && flags_eq (a_flags a) (a_flags b) && option_eq version_eq (a_version a) (a_version b)
  && buf_eq (a_mic a) (a_mic b) && option_eq buf_eq (a_exported_key a) (a_exported_key b).
