(** What is logged while a message is decoded. *)
From Coq Require Import Ascii String.
From Verif Require Import Base Nom Unicode Wire Structures Prims Messages Crypto Client Debug Log Spec.

(** ** Numbers in texts *)
Definition is_digit (c : N) : Prop := 48 <= c <= 57.
(** the number a text of decimal digits stands for *)
Definition decimal_value (s : rstring) : N := fold_left (fun v c => v * 10 + (c - 48)) s 0.

(** ** Flags: the tests by bit number (MS-NLMP 2.2.2.5; R1 to R10 are the unused
    bits) and the lines they give *)
Definition flag_tests : list ((N -> bool) * string) :=
  [(fun f => N.testbit f 28, "flags.has_flag(R1)");
   (fun f => N.testbit f 27, "flags.has_flag(R2)");
   (fun f => N.testbit f 26, "flags.has_flag(R3)");
   (fun f => N.testbit f 24, "flags.has_flag(R4)");
   (fun f => N.testbit f 21, "flags.has_flag(R5)");
   (fun f => N.testbit f 18, "flags.has_flag(R6)");
   (fun f => N.testbit f 14, "flags.has_flag(R7)");
   (fun f => N.testbit f 10, "flags.has_flag(R8)");
   (fun f => N.testbit f 8, "flags.has_flag(R9)");
   (fun f => N.testbit f 3, "flags.has_flag(R10)");
   (fun f => N.testbit f 16 && N.testbit f 17,
    "flags cannot have NTLMSSP_TARGET_TYPE_DOMAIN and NTLMSSP_TARGET_TYPE_SERVER");
   (fun f => negb (N.testbit f 0) && negb (N.testbit f 1),
    "!flags.has_flag(NTLMSSP_NEGOTIATE_UNICODE) && !flags.has_flag(NTLM_NEGOTIATE_OEM)");
   (fun f => N.testbit f 19 && N.testbit f 7,
    "flags.has_flag(NTLMSSP_NEGOTIATE_EXTENDED_SESSIONSECURITY) && flags.has_flag(NTLMSSP_NEGOTIATE_LM_KEY)")]%string.
Definition flag_warnings (f : N) : list rstring :=
  map (fun t => text (snd t)) (filter (fun t => fst t f) flag_tests).

(** ** Fields: a line if the field is empty, a line if [k] bytes of it are left over *)
Definition no_field (name : string) : rstring :=
  text (String.append "Flag for " (String.append name " is set but field is empty")).
Definition left_over (name : string) (k : N) : rstring :=
  text (String.append "Not all is consumed for " name) ++ text ". " ++ decimal k ++ text " bytes remaning".
Definition field_warnings (name : string) (b : bytes) (o k : N) : list rstring :=
  if field_len b o =? 0 then [no_field name] else if k =? 0 then [] else [left_over name k].

(** bytes left over of the fields: text is read to the first NUL, lone surrogate or odd byte *)
Definition text_left (b : bytes) (o : N) : N := len (snd (read_utf16 (field_data b o))).
Inductive infos_left (cfg : config) (b : bytes) (o : N) : N -> Prop :=
| il_none : field_len b o = 0 -> infos_left cfg b o 0
| il_walk l r : field_len b o <> 0 -> av_walk cfg (field_data b o) (WList l r) -> infos_left cfg b o (len r).
Inductive nt_left (cfg : config) (b : bytes) (o : N) : N -> Prop :=
| nl_none : field_len b o = 0 -> nt_left cfg b o 0
| nl_v2 l r : field_len b o <> 0 -> ntv2_header cfg (field_data b o) = true ->
    av_walk cfg (skipn 28 (field_data b o)) (WList l r) -> nt_left cfg b o (len r)
| nl_v1 : field_len b o <> 0 -> ntv2_header cfg (field_data b o) = false -> 24 <= field_len b o ->
    nt_left cfg b o (field_len b o - 24).
(** an LM response shorter than 24 bytes is dropped without a line *)
Definition lm_warnings (b : bytes) : list rstring :=
  field_warnings (if N.testbit (u32_at b 60) 9 then "lmv1_challenge_response" else "lmv2_challenge_response")
    b 12 (field_len b 12 - 24).
Definition key_warnings (b : bytes) : list rstring :=
  if N.testbit (u32_at b 60) 30 then field_warnings "encrypted_random_session_key" b 52 (field_len b 52 - 16) else [].

(** ** The forms a line can have *)
Definition field_names : list string :=
  ["domain"; "workstation"; "target_name"; "target_infos"; "lmv1_challenge_response"; "lmv2_challenge_response";
   "nt_challenge_response"; "user"; "encrypted_random_session_key"]%string.
Inductive known_line : rstring -> Prop :=
| known_flag t : In t flag_tests -> known_line (text (snd t))
| known_empty name : In name field_names -> known_line (no_field name)
| known_left name k : In name field_names -> 0 < k < 65536 -> known_line (left_over name k).

(** the lines logged for [b] taken as a message of type [ty] with its flags at [fo] *)
Definition logs (ty fo : N) (b : bytes) (lines : list rstring) : Prop :=
  (fo + 4 <= len b -> is_message ty b ->
   exists rest, lines = flag_warnings (u32_at b fo) ++ rest /\ Forall known_line rest)
  /\ (len b < fo + 4 \/ ~ is_message ty b -> lines = []).

(** ** The client: the lines one call prints on standard error *)
Definition printed_by (o : op) (result : out) : list rstring :=
  match o, result with
  | OpNegociate, OutBytes b =>
      [text "self.buffer.len() = " ++ decimal (len b); text "size = " ++ decimal (len b)]
  | _, _ => []
  end.
(** what a history of calls prints, call after call *)
Fixpoint printed_along (cfg : config) (P : prims) (c : client) (h : list op) : list rstring :=
  match h with
  | [] => []
  | o :: h => printed (fst (v_step cfg P c o)) ++ printed_along cfg P (fst (snd (v_step cfg P c o))) h
  end.
Fixpoint warned_along (cfg : config) (P : prims) (c : client) (h : list op) : list rstring :=
  match h with
  | [] => []
  | o :: h => warned (fst (v_step cfg P c o)) ++ warned_along cfg P (fst (snd (v_step cfg P c o))) h
  end.
(** messages sent as NEGOTIATE in a history *)
Fixpoint negotiates_sent (cfg : config) (P : prims) (c : client) (h : list op) : list bytes :=
  match h with
  | [] => []
  | o :: h =>
      match o, snd (step cfg P c o) with OpNegociate, OutBytes b => [b] | _, _ => [] end
      ++ negotiates_sent cfg P (fst (step cfg P c o)) h
  end.
