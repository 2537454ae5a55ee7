(** Specification vocabulary for printed forms. *)
From Coq Require Import Ascii String.
From Verif Require Import Base Unicode Debug.

(** The flags of MS-NLMP 2.2.2.5 by bit number, with the names of the crate's
    constants (R1 to R10: the unused bits). *)
Definition flag_names : list (N * string) :=
  [(31, "NTLMSSP_NEGOTIATE_56");
   (30, "NTLMSSP_NEGOTIATE_KEY_EXCH");
   (29, "NTLMSSP_NEGOTIATE_128");
   (28, "R1");
   (27, "R2");
   (26, "R3");
   (25, "NTLMSSP_NEGOTIATE_VERSION");
   (24, "R4");
   (23, "NTLMSSP_NEGOTIATE_TARGET_INFO");
   (22, "NTLMSSP_REQUEST_NON_NT_SESSION_KEY");
   (21, "R5");
   (20, "NTLMSSP_NEGOTIATE_IDENTIFY");
   (19, "NTLMSSP_NEGOTIATE_EXTENDED_SESSIONSECURITY");
   (18, "R6");
   (17, "NTLMSSP_TARGET_TYPE_SERVER");
   (16, "NTLMSSP_TARGET_TYPE_DOMAIN");
   (15, "NTLMSSP_NEGOTIATE_ALWAYS_SIGN");
   (14, "R7");
   (13, "NTLMSSP_NEGOTIATE_OEM_WORKSTATION_SUPPLIED");
   (12, "NTLMSSP_NEGOTIATE_OEM_DOMAIN_SUPPLIED");
   (11, "NTLMSSP_ANONYMOUS");
   (10, "R8");
   (9, "NTLMSSP_NEGOTIATE_NTLM");
   (8, "R9");
   (7, "NTLMSSP_NEGOTIATE_LM_KEY");
   (6, "NTLMSSP_NEGOTIATE_DATAGRAM");
   (5, "NTLMSSP_NEGOTIATE_SEAL");
   (4, "NTLMSSP_NEGOTIATE_SIGN");
   (3, "R10");
   (2, "NTLMSSP_REQUEST_TARGET");
   (1, "NTLM_NEGOTIATE_OEM");
   (0, "NTLMSSP_NEGOTIATE_UNICODE")]%string.
Definition BAR : N := 124.
(** Texts with a bar between neighbours. *)
Fixpoint bar_separated (l : list rstring) : rstring :=
  match l with
  | [] => []
  | [s] => s
  | s :: r => s ++ BAR :: bar_separated r
  end.
(** The hexadecimal digits. *)
Definition hex_digits : rstring := text "0123456789abcdef".
Definition two_digits (x : N) : rstring :=
  [nth (N.to_nat (x / 16)) hex_digits 0; nth (N.to_nat (x mod 16)) hex_digits 0].
