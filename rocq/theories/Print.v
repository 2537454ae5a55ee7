(** The derived [Debug] implementations ([{:?}]).

    [derive(Debug)] calls the builders of [core::fmt] with the names of the
    type, its variants and its fields in their order.  The alternate form
    [{:#?}] is in [Pretty.v]; other format parameters are not modelled. *)
From Coq Require Import Ascii String.
From Verif Require Import Base Nom Unicode Wire Structures Prims Messages Crypto Client Debug Log.

(** [join ", "].
    In the derived [Debug] of src/messages/structures/version.rs:13 and
    others. *)
Fixpoint comma_separated (l : list rstring) : rstring :=
  match l with
  | [] => []
  | [s] => s
  | s :: r => s ++ text ", " ++ comma_separated r
  end.
(** [core::fmt::Formatter::debug_struct], [debug_tuple], [debug_list].
    What the derived [Debug] of src/messages/structures/version.rs:13 and
    others calls. *)
Definition debug_struct (name : string) (fields : list (string * rstring)) : rstring :=
  text name ++ text " { " ++ comma_separated (map (fun f => text (fst f) ++ text ": " ++ snd f) fields) ++ text " }".
(** What the derived [Debug] of src/messages/structures/avid.rs:117 calls *)
Definition debug_tuple (name : string) (values : list rstring) : rstring :=
  text name ++ text "(" ++ comma_separated values ++ text ")".
(** What [Debug] of the [Vec<AvPair>] of src/messages/challenge.rs:24 calls *)
Definition debug_list (values : list rstring) : rstring :=
  text "[" ++ comma_separated values ++ text "]".

(** [Debug] of integers, booleans, [Option], [Vec] and arrays.
    For the derived [Debug] of src/messages/structures/version.rs:13 and
    others. *)
Definition int_debug (n : N) : rstring := decimal n.
(** src/messages/structures/avid.rs:67-75 *)
Definition bool_debug (b : bool) : rstring := if b then text "true" else text "false".
(** src/messages/negotiate.rs:17-23 *)
Definition option_debug {A : Type} (p : A -> rstring) (o : option A) : rstring :=
  match o with Some a => debug_tuple "Some" [p a] | None => text "None" end.
(** src/messages/challenge.rs:19-26 *)
Definition vec_debug {A : Type} (p : A -> rstring) (l : list A) : rstring := debug_list (map p l).

(** [Debug for str]: [char::escape_debug_ext] of every character, without
    escaping single quotes.  [esc] tells the other characters written as
    [\u{...}] (grapheme extenders and unprintable characters; the tables are
    not modelled).
    src/messages/unicode_string.rs:55-59. *)
Definition char_debug (esc : N -> bool) (c : N) : rstring :=
  match c with
  | 0 => text "\0"
  | 9 => text "\t"
  | 13 => text "\r"
  | 10 => text "\n"
  | 34 => [92; 34]
  | 92 => [92; 92]
  | _ => if esc c then text "\u{" ++ lower_hex 6 c [] ++ text "}" else [c]
  end.
(** src/messages/unicode_string.rs:55-59,
    src/messages/structures/avid.rs:117-142 *)
Definition str_debug (esc : N -> bool) (s : rstring) : rstring := [34] ++ flat_map (char_debug esc) s ++ [34].

Section Derived.
  Context (esc : N -> bool).

  (** src/messages/structures/version.rs:13-19 *)
  Definition version_debug (v : version) : rstring :=
    debug_struct "Version"
      [("major", int_debug (v_major v)); ("minor", int_debug (v_minor v));
       ("build", int_debug (v_build v)); ("revision_count", int_debug (v_revision v))]%string.
  (** src/messages/field.rs:14-19 *)
  Definition field_debug (f : field) : rstring :=
    debug_struct "Field"
      [("len", int_debug (f_len f)); ("max_len", int_debug (f_max_len f)); ("offset", int_debug (f_offset f))]%string.
  (** src/messages/structures/filetime.rs:9-13 *)
  Definition filetime_debug (t : filetime) : rstring :=
    debug_struct "FileTime" [("low", int_debug (ft_low t)); ("high", int_debug (ft_high t))]%string.
  (** src/messages/structures/single_host_data.rs:9-15 *)
  Definition single_host_debug (h : single_host) : rstring :=
    debug_struct "SingleHostData"
      [("size", int_debug (sh_size h)); ("z4", int_debug (sh_z4 h));
       ("custom_data", vec_debug int_debug (sh_custom h)); ("machine_id", vec_debug int_debug (sh_machine h))]%string.
  (** src/messages/structures/signature.rs:10-15 *)
  Definition signature_debug (g : message_signature) : rstring :=
    debug_struct "MessageSignature"
      [("random_pad", buffer_debug (sg_pad g)); ("checksum", int_debug (sg_checksum g));
       ("seq_num", int_debug (sg_seq g))]%string.
  (** src/messages/structures/avid.rs:18-33 *)
  Definition av_id_debug (i : av_id) : rstring :=
    match i with
    | IdEOL => text "MsvAvEOL"
    | IdNbComputerName => text "MsvAvNbComputerName"
    | IdNbDomainName => text "MsvAvNbDomainName"
    | IdDnsComputerName => text "MsvAvDnsComputerName"
    | IdDnsDomainName => text "MsvAvDnsDomainName"
    | IdDnsTreeName => text "MsvAvDnsTreeName"
    | IdFlags => text "MsvAvFlags"
    | IdTimestamp => text "MsvAvTimestamp"
    | IdSingleHost => text "MsvAvSingleHost"
    | IdTargetName => text "MsvAvTargetName"
    | IdChannelBindings => text "MsvAvChannelBindings"
    end.
  (** src/messages/structures/avid.rs:67-75 *)
  Definition av_flags_debug (f : av_flags) : rstring :=
    debug_struct "MsvAvFlags"
      [("account_authentication_constrained", bool_debug (avf_constrained f));
       ("mic_present", bool_debug (avf_mic f));
       ("generated_spn_from_untrusted_source", bool_debug (avf_untrusted_spn f))]%string.
  (** src/messages/structures/avid.rs:117-144 *)
  Definition av_pair_debug (a : av_pair) : rstring :=
    match a with
    | AvEOL => text "MsvAvEOL"
    | AvNbComputerName s => debug_tuple "MsvAvNbComputerName" [str_debug esc s]
    | AvNbDomainName s => debug_tuple "MsvAvNbDomainName" [str_debug esc s]
    | AvDnsComputerName s => debug_tuple "MsvAvDnsComputerName" [str_debug esc s]
    | AvDnsDomainName s => debug_tuple "MsvAvDnsDomainName" [str_debug esc s]
    | AvDnsTreeName s => debug_tuple "MsvAvDnsTreeName" [str_debug esc s]
    | AvFlags f => debug_tuple "MsvAvFlags" [av_flags_debug f]
    | AvTimestamp t => debug_tuple "MsvAvTimestamp" [filetime_debug t]
    | AvSingleHost h => debug_tuple "MsvAvSingleHost" [single_host_debug h]
    | AvTargetName s => debug_tuple "MsvAvTargetName" [str_debug esc s]
    | AvChannelBindings b => debug_tuple "MsvAvChannelBindings" [vec_debug int_debug b]
    end.
  (** src/messages/structures/lm_challenge.rs:16-19, 46-50, 101-105 *)
  Definition lm_challenge_debug (c : lm_challenge) : rstring :=
    match c with
    | LmV1 r => debug_tuple "V1" [debug_struct "Lmv1Challenge" [("response", buffer_debug r)]%string]
    | LmV2 r cc =>
        debug_tuple "V2" [debug_struct "Lmv2Challenge"
          [("response", buffer_debug r); ("challenge_from_client", buffer_debug cc)]%string]
    end.
  (** src/messages/structures/nt_challenge.rs:37-42 *)
  Definition ntv2_debug (c : ntv2_challenge) : rstring :=
    debug_struct "Ntv2Challenge"
      [("timestamp", filetime_debug (nt_timestamp c));
       ("challenge_from_client", buffer_debug (nt_client_challenge c));
       ("target_infos", vec_debug av_pair_debug (nt_target_infos c))]%string.
  (** src/messages/structures/nt_challenge.rs:15-18, 101-105 *)
  Definition nt_challenge_debug (c : nt_challenge) : rstring :=
    match c with
    | NtV1 r => debug_tuple "V1" [debug_struct "Ntv1Challenge" [("response", buffer_debug r)]%string]
    | NtV2 c => debug_tuple "V2" [ntv2_debug c]
    end.
  (** src/messages/negotiate.rs:17-23; [Debug] of the string types prints the
      string (src/messages/unicode_string.rs:55-59) *)
  Definition negotiate_debug (n : negotiate) : rstring :=
    debug_struct "Negotiate"
      [("negotiate_flags", flags_debug (n_flags n));
       ("domain_name", option_debug (str_debug esc) (n_domain n));
       ("workstation", option_debug (str_debug esc) (n_workstation n));
       ("version", option_debug version_debug (n_version n))]%string.
  (** src/messages/challenge.rs:19-26 *)
  Definition challenge_debug (c : challenge) : rstring :=
    debug_struct "Challenge"
      [("target_name", option_debug (str_debug esc) (ch_target_name c));
       ("negotiate_flags", flags_debug (ch_flags c));
       ("server_challenge", buffer_debug (ch_server_challenge c));
       ("target_infos", vec_debug av_pair_debug (ch_target_infos c));
       ("version", option_debug version_debug (ch_version c))]%string.
  (** src/messages/authenticate.rs:23-35 *)
  Definition authenticate_debug (a : authenticate) : rstring :=
    debug_struct "Authenticate"
      [("lm_challenge_response", option_debug lm_challenge_debug (a_lm a));
       ("nt_challenge_response", option_debug nt_challenge_debug (a_nt a));
       ("domain", option_debug (str_debug esc) (a_domain a));
       ("user", option_debug (str_debug esc) (a_user a));
       ("workstation", option_debug (str_debug esc) (a_workstation a));
       ("encrypted_random_session_key", option_debug buffer_debug (a_session_key a));
       ("negotiate_flags", flags_debug (a_flags a));
       ("version", option_debug version_debug (a_version a));
       ("mic", buffer_debug (a_mic a));
       ("exported_session_key", option_debug buffer_debug (a_exported_key a))]%string.
  (** src/client.rs:13-20 *)
  Definition client_state_debug (s : client_state) : rstring :=
    match s with
    | StNew => text "New"
    | StNegotiateSent n => debug_tuple "NegociateSent" [negotiate_debug n]
    | StChallengeReceived n c => debug_tuple "ChallengeReceived" [negotiate_debug n; challenge_debug c]
    | StAuthenticateSent n c a =>
        debug_tuple "AuthenticateSent" [negotiate_debug n; challenge_debug c; authenticate_debug a]
    end.
End Derived.
