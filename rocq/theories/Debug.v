(** The hand-written [Debug] implementations. *)
From Coq Require Import Ascii String.
From Verif Require Import Base Nom Unicode Wire.

(** An ASCII text literal.
    For the literals of src/messages/flags.rs:290-549 and others. *)
Definition text (s : string) : rstring := map N_of_ascii (list_ascii_of_string s).

(** src/messages/flags.rs:292-546: the [if] blocks in their order, each with
    the constant tested and the name written *)
Definition flag_blocks : list (N * string) :=
  [(NTLMSSP_NEGOTIATE_56, "NTLMSSP_NEGOTIATE_56");
   (NTLMSSP_NEGOTIATE_KEY_EXCH, "NTLMSSP_NEGOTIATE_KEY_EXCH");
   (NTLMSSP_NEGOTIATE_128, "NTLMSSP_NEGOTIATE_128");
   (R1, "R1");
   (R2, "R2");
   (R3, "R3");
   (NTLMSSP_NEGOTIATE_VERSION, "NTLMSSP_NEGOTIATE_VERSION");
   (R4, "R4");
   (NTLMSSP_NEGOTIATE_TARGET_INFO, "NTLMSSP_NEGOTIATE_TARGET_INFO");
   (NTLMSSP_REQUEST_NON_NT_SESSION_KEY, "NTLMSSP_REQUEST_NON_NT_SESSION_KEY");
   (R5, "R5");
   (NTLMSSP_NEGOTIATE_IDENTIFY, "NTLMSSP_NEGOTIATE_IDENTIFY");
   (NTLMSSP_NEGOTIATE_EXTENDED_SESSIONSECURITY, "NTLMSSP_NEGOTIATE_EXTENDED_SESSIONSECURITY");
   (R6, "R6");
   (NTLMSSP_TARGET_TYPE_SERVER, "NTLMSSP_TARGET_TYPE_SERVER");
   (NTLMSSP_TARGET_TYPE_DOMAIN, "NTLMSSP_TARGET_TYPE_DOMAIN");
   (NTLMSSP_NEGOTIATE_ALWAYS_SIGN, "NTLMSSP_NEGOTIATE_ALWAYS_SIGN");
   (R7, "R7");
   (NTLMSSP_NEGOTIATE_OEM_WORKSTATION_SUPPLIED, "NTLMSSP_NEGOTIATE_OEM_WORKSTATION_SUPPLIED");
   (NTLMSSP_NEGOTIATE_OEM_DOMAIN_SUPPLIED, "NTLMSSP_NEGOTIATE_OEM_DOMAIN_SUPPLIED");
   (NTLMSSP_ANONYMOUS, "NTLMSSP_ANONYMOUS");
   (R8, "R8");
   (NTLMSSP_NEGOTIATE_NTLM, "NTLMSSP_NEGOTIATE_NTLM");
   (R9, "R9");
   (NTLMSSP_NEGOTIATE_LM_KEY, "NTLMSSP_NEGOTIATE_LM_KEY");
   (NTLMSSP_NEGOTIATE_DATAGRAM, "NTLMSSP_NEGOTIATE_DATAGRAM");
   (NTLMSSP_NEGOTIATE_SEAL, "NTLMSSP_NEGOTIATE_SEAL");
   (NTLMSSP_NEGOTIATE_SIGN, "NTLMSSP_NEGOTIATE_SIGN");
   (R10, "R10");
   (NTLMSSP_REQUEST_TARGET, "NTLMSSP_REQUEST_TARGET");
   (NTLM_NEGOTIATE_OEM, "NTLM_NEGOTIATE_OEM");
   (NTLMSSP_NEGOTIATE_UNICODE, "NTLMSSP_NEGOTIATE_UNICODE")]%string.

(** src/messages/flags.rs:292-299 (and the 31 blocks like it): the text so far
    and the variable [first] *)
Definition flag_block (f : flags) (acc : rstring * bool) (blk : N * string) : rstring * bool :=
  let '(out, first) := acc in
  if has_flag f (fst blk)
  then (out ++ (if first then text (snd blk) else text "|" ++ text (snd blk)), false)
  else acc.

(** src/messages/flags.rs:289-549, [Debug for Flags]: the text written.  Writing
    to the formatter does not fail in the model. *)
Definition flags_debug (f : flags) : rstring :=
  fst (fold_left (flag_block f) flag_blocks ([], true)).

(** [LowerHex] of an unsigned integer: digits from the least significant one on,
    at least one; [fuel] bounds the number of digits (2 for a [u8]).
    src/messages/structures.rs:55. *)
Definition lower_digit (d : N) : N := if d <? 10 then 48 + d else 87 + d.
(** [{:x}], src/messages/structures.rs:55 *)
Fixpoint lower_hex (fuel : nat) (n : N) (acc : rstring) : rstring :=
  match fuel with
  | O => acc
  | S fuel =>
      let acc := lower_digit (n mod 16) :: acc in
      if n / 16 =? 0 then acc else lower_hex fuel (n / 16) acc
  end.
(** [{:02x}]: filled with 0 to the width 2.
    src/messages/structures.rs:55. *)
Definition pad2 (s : rstring) : rstring := repeat 48 (2 - length s) ++ s.

(** src/messages/structures.rs:52-59, [Debug] of the fixed-size buffers *)
Definition buffer_debug (b : bytes) : rstring := flat_map (fun x => pad2 (lower_hex 2 x [])) b.
