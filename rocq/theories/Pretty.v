(** The alternate form of the derived [Debug] implementations ([{:#?}]).

    [derive(Debug)] calls the builders of [core::fmt]; here the calls made are
    data, and the two ways in which [core::fmt] carries them out are functions of
    them.  [Print.v] has the first one ([{:?}]) directly. *)
From Coq Require Import Ascii String.
From Verif Require Import Base Nom Unicode Wire Structures Prims Messages Crypto Client Debug Log Print.

(** The calls of one implementation: text written, or a builder with what was
    given to it.
    What the derived [Debug] of src/messages/structures/version.rs:13 and
    others does. *)
Inductive fmt_call :=
| Write (s : rstring)
| DebugStruct (name : string) (fields : list (string * fmt_call))
| DebugTuple (name : string) (values : list fmt_call)
| DebugList (values : list fmt_call).

(** [{:?}]; without fields or values only the name.
    For the implementations of src/messages/structures.rs:52-59 and the
    derived ones. *)
Fixpoint compact (c : fmt_call) : rstring :=
  match c with
  | Write s => s
  | DebugStruct name [] | DebugTuple name [] => text name
  | DebugStruct name fields => debug_struct name (map (fun f => let '(k, v) := f in (k, compact v)) fields)
  | DebugTuple name values => debug_tuple name (map compact values)
  | DebugList values => debug_list (map compact values)
  end.

(** [core::fmt::builders::PadAdapter]: four spaces before the first character of
    every line; [start] is its state [on_newline].
    As under [{:#x?}], src/messages/challenge.rs:247. *)
Fixpoint pad_adapter (start : bool) (s : rstring) : rstring :=
  match s with
  | [] => []
  | c :: r => (if start then text "    " else []) ++ c :: pad_adapter (c =? 10) r
  end.
(** [{:#?}]: each field or value is written through a fresh adapter, followed by
    a comma and a line break; the first one is preceded by the bracket and a line
    break ([DebugStruct::field], [DebugTuple::field], [DebugInner::entry] and the
    [finish] functions).
    As under [{:#x?}], src/messages/challenge.rs:247. *)
Fixpoint pretty (c : fmt_call) : rstring :=
  match c with
  | Write s => s
  | DebugStruct name [] => text name
  | DebugStruct name fields =>
      text name ++ text " {" ++ [10]
      ++ flat_map (fun f => let '(k, v) := f in pad_adapter true (text k ++ text ": " ++ pretty v ++ text "," ++ [10])) fields
      ++ text "}"
  | DebugTuple name [] => text name
  | DebugTuple name values =>
      text name ++ text "(" ++ [10]
      ++ flat_map (fun v => pad_adapter true (pretty v ++ text "," ++ [10])) values ++ text ")"
  | DebugList [] => text "[]"
  | DebugList values =>
      text "[" ++ [10] ++ flat_map (fun v => pad_adapter true (pretty v ++ text "," ++ [10])) values ++ text "]"
  end.

(** [Debug] of integers, booleans, [Option], [Vec], arrays and strings.
    For the derived [Debug] of src/messages/structures/version.rs:13 and
    others. *)
Definition int_calls (n : N) : fmt_call := Write (int_debug n).
(** src/messages/structures/avid.rs:67-75 *)
Definition bool_calls (b : bool) : fmt_call := Write (bool_debug b).
(** src/messages/negotiate.rs:17-23 *)
Definition option_calls {A : Type} (p : A -> fmt_call) (o : option A) : fmt_call :=
  match o with Some a => DebugTuple "Some" [p a] | None => Write (text "None") end.
(** src/messages/challenge.rs:19-26 *)
Definition vec_calls {A : Type} (p : A -> fmt_call) (l : list A) : fmt_call := DebugList (map p l).
(** src/messages/structures.rs:52-59: [write!] with its own parameters *)
Definition buffer_calls (b : bytes) : fmt_call := Write (buffer_debug b).
(** src/messages/flags.rs:289-549 *)
Definition flags_calls (f : flags) : fmt_call := Write (flags_debug f).

Section Derived.
  Context (esc : N -> bool).

  (** src/messages/unicode_string.rs:55-59 *)
  Definition str_calls (s : rstring) : fmt_call := Write (str_debug esc s).
  (** src/messages/structures/version.rs:13-19 *)
  Definition version_calls (v : version) : fmt_call :=
    DebugStruct "Version"
      [("major", int_calls (v_major v)); ("minor", int_calls (v_minor v));
       ("build", int_calls (v_build v)); ("revision_count", int_calls (v_revision v))]%string.
  (** src/messages/field.rs:14-19 *)
  Definition field_calls (f : field) : fmt_call :=
    DebugStruct "Field"
      [("len", int_calls (f_len f)); ("max_len", int_calls (f_max_len f)); ("offset", int_calls (f_offset f))]%string.
  (** src/messages/structures/filetime.rs:9-13 *)
  Definition filetime_calls (t : filetime) : fmt_call :=
    DebugStruct "FileTime" [("low", int_calls (ft_low t)); ("high", int_calls (ft_high t))]%string.
  (** src/messages/structures/single_host_data.rs:9-15 *)
  Definition single_host_calls (h : single_host) : fmt_call :=
    DebugStruct "SingleHostData"
      [("size", int_calls (sh_size h)); ("z4", int_calls (sh_z4 h));
       ("custom_data", vec_calls int_calls (sh_custom h)); ("machine_id", vec_calls int_calls (sh_machine h))]%string.
  (** src/messages/structures/signature.rs:10-15 *)
  Definition signature_calls (g : message_signature) : fmt_call :=
    DebugStruct "MessageSignature"
      [("random_pad", buffer_calls (sg_pad g)); ("checksum", int_calls (sg_checksum g));
       ("seq_num", int_calls (sg_seq g))]%string.
  (** src/messages/structures/avid.rs:67-75 *)
  Definition av_flags_calls (f : av_flags) : fmt_call :=
    DebugStruct "MsvAvFlags"
      [("account_authentication_constrained", bool_calls (avf_constrained f));
       ("mic_present", bool_calls (avf_mic f));
       ("generated_spn_from_untrusted_source", bool_calls (avf_untrusted_spn f))]%string.
  (** src/messages/structures/avid.rs:117-144 *)
  Definition av_pair_calls (a : av_pair) : fmt_call :=
    match a with
    | AvEOL => Write (text "MsvAvEOL")
    | AvNbComputerName s => DebugTuple "MsvAvNbComputerName" [str_calls s]
    | AvNbDomainName s => DebugTuple "MsvAvNbDomainName" [str_calls s]
    | AvDnsComputerName s => DebugTuple "MsvAvDnsComputerName" [str_calls s]
    | AvDnsDomainName s => DebugTuple "MsvAvDnsDomainName" [str_calls s]
    | AvDnsTreeName s => DebugTuple "MsvAvDnsTreeName" [str_calls s]
    | AvFlags f => DebugTuple "MsvAvFlags" [av_flags_calls f]
    | AvTimestamp t => DebugTuple "MsvAvTimestamp" [filetime_calls t]
    | AvSingleHost h => DebugTuple "MsvAvSingleHost" [single_host_calls h]
    | AvTargetName s => DebugTuple "MsvAvTargetName" [str_calls s]
    | AvChannelBindings b => DebugTuple "MsvAvChannelBindings" [vec_calls int_calls b]
    end.
  (** src/messages/structures/lm_challenge.rs:16-19, 46-50, 101-105 *)
  Definition lm_challenge_calls (c : lm_challenge) : fmt_call :=
    match c with
    | LmV1 r => DebugTuple "V1" [DebugStruct "Lmv1Challenge" [("response", buffer_calls r)]%string]
    | LmV2 r cc =>
        DebugTuple "V2" [DebugStruct "Lmv2Challenge"
          [("response", buffer_calls r); ("challenge_from_client", buffer_calls cc)]%string]
    end.
  (** src/messages/structures/nt_challenge.rs:37-42 *)
  Definition ntv2_calls (c : ntv2_challenge) : fmt_call :=
    DebugStruct "Ntv2Challenge"
      [("timestamp", filetime_calls (nt_timestamp c));
       ("challenge_from_client", buffer_calls (nt_client_challenge c));
       ("target_infos", vec_calls av_pair_calls (nt_target_infos c))]%string.
  (** src/messages/structures/nt_challenge.rs:15-18, 101-105 *)
  Definition nt_challenge_calls (c : nt_challenge) : fmt_call :=
    match c with
    | NtV1 r => DebugTuple "V1" [DebugStruct "Ntv1Challenge" [("response", buffer_calls r)]%string]
    | NtV2 c => DebugTuple "V2" [ntv2_calls c]
    end.
  (** src/messages/negotiate.rs:17-23 *)
  Definition negotiate_calls (n : negotiate) : fmt_call :=
    DebugStruct "Negotiate"
      [("negotiate_flags", flags_calls (n_flags n));
       ("domain_name", option_calls str_calls (n_domain n));
       ("workstation", option_calls str_calls (n_workstation n));
       ("version", option_calls version_calls (n_version n))]%string.
  (** src/messages/challenge.rs:19-26 *)
  Definition challenge_calls (c : challenge) : fmt_call :=
    DebugStruct "Challenge"
      [("target_name", option_calls str_calls (ch_target_name c));
       ("negotiate_flags", flags_calls (ch_flags c));
       ("server_challenge", buffer_calls (ch_server_challenge c));
       ("target_infos", vec_calls av_pair_calls (ch_target_infos c));
       ("version", option_calls version_calls (ch_version c))]%string.
  (** src/messages/authenticate.rs:23-35 *)
  Definition authenticate_calls (a : authenticate) : fmt_call :=
    DebugStruct "Authenticate"
      [("lm_challenge_response", option_calls lm_challenge_calls (a_lm a));
       ("nt_challenge_response", option_calls nt_challenge_calls (a_nt a));
       ("domain", option_calls str_calls (a_domain a));
       ("user", option_calls str_calls (a_user a));
       ("workstation", option_calls str_calls (a_workstation a));
       ("encrypted_random_session_key", option_calls buffer_calls (a_session_key a));
       ("negotiate_flags", flags_calls (a_flags a));
       ("version", option_calls version_calls (a_version a));
       ("mic", buffer_calls (a_mic a));
       ("exported_session_key", option_calls buffer_calls (a_exported_key a))]%string.
  (** src/client.rs:13-20 *)
  Definition client_state_calls (s : client_state) : fmt_call :=
    match s with
    | StNew => Write (text "New")
    | StNegotiateSent n => DebugTuple "NegociateSent" [negotiate_calls n]
    | StChallengeReceived n c => DebugTuple "ChallengeReceived" [negotiate_calls n; challenge_calls c]
    | StAuthenticateSent n c a =>
        DebugTuple "AuthenticateSent" [negotiate_calls n; challenge_calls c; authenticate_calls a]
    end.
End Derived.

(** [format!("{:#?}", x)] of the messages.
    src/messages/negotiate.rs:17-23. *)
Definition negotiate_pretty (esc : N -> bool) (n : negotiate) : rstring := pretty (negotiate_calls esc n).
(** src/messages/challenge.rs:19-26 *)
Definition challenge_pretty (esc : N -> bool) (c : challenge) : rstring := pretty (challenge_calls esc c).
(** src/messages/authenticate.rs:23-35 *)
Definition authenticate_pretty (esc : N -> bool) (a : authenticate) : rstring := pretty (authenticate_calls esc a).
(** src/client.rs:13-20 *)
Definition client_state_pretty (esc : N -> bool) (s : client_state) : rstring := pretty (client_state_calls esc s).
