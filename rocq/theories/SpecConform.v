(** Messages as conforming peers may lay them out.  MS-NLMP 2.2.1 fixes only the
    header of a message: the contents of the fields may stand anywhere in it, in
    any order, with gaps between them, and the maximal lengths are to be ignored. *)
From Verif Require Import Base Nom Unicode Wire Structures Messages Spec.

(** The field with its descriptor at offset [o] holds [x]. *)
Definition holds (b : bytes) (o : N) (x : bytes) : Prop :=
  field_len b o = len x /\ field_data b o = x.
(** Text is UTF-16LE if UNICODE (bit 0) is negotiated and OEM text if not; all
    OEM character sets have ASCII in common, one byte a character. *)
Definition negotiated_text (f : flags) (s : rstring) : bytes :=
  if N.testbit f 0 then utf16le s else s.
Definition ascii (s : rstring) : Prop := Forall (fun c => 0 < c < 128) s.
(** AV pairs, little endian (independent of the host of the crate). *)
Definition pairs_bytes (l : list av_pair) : bytes := av_list_bytes (mkConfig false false false true) l.
(** A version at offset [o] if bit 25 announces one. *)
Definition version_part (b : bytes) (f o : N) (v : option version) : Prop :=
  match v with
  | Some v => N.testbit f 25 = true /\ o + 8 <= len b /\ sub b o 8 = version_bytes v
  | None => N.testbit f 25 = false
  end.
(** MS-NLMP 2.2.2.10: NTLMSSP_REVISION_W2K3 *)
Definition current_revision (v : option version) : Prop :=
  valid_opt (fun v => valid_version v /\ v_revision v = 15) v.

(** 2.2.1.2: a server sends the CHALLENGE [c] as [b]. *)
Definition server_sends (b : bytes) (c : challenge) : Prop :=
  48 <= len b /\ is_message 2 b /\ u32_at b 20 = ch_flags c
  /\ sub b 24 8 = ch_server_challenge c /\ sub b 32 8 = [0; 0; 0; 0; 0; 0; 0; 0]
  /\ holds b 12 (content (opt_map (negotiated_text (ch_flags c)) (ch_target_name c)))
  /\ holds b 40 (pairs_bytes (ch_target_infos c))
  /\ version_part b (ch_flags c) 48 (ch_version c).
(** The values the crate can represent: names in the AV pairs without NUL and
    without characters outside the BMP, times of the host, Z4 zero; the list
    ends with EOL. *)
Definition usual_infos (cfg : config) (l : list av_pair) : Prop :=
  Forall valid_av_pair l /\ Forall (carried_av cfg) l /\ eol_terminated l.

(** 2.2.1.1: a client sends the NEGOTIATE [n] as [b]; its names are OEM text. *)
Definition client_offers (b : bytes) (n : negotiate) : Prop :=
  32 <= len b /\ is_message 1 b /\ u32_at b 12 = n_flags n
  /\ holds b 16 (content (n_domain n)) /\ holds b 24 (content (n_workstation n))
  /\ version_part b (n_flags n) 32 (n_version n).

(** 2.2.1.3: an AUTHENTICATE with these contents; 8 bytes of zeros stand for an
    absent version. *)
Record answer := mkAnswer {
  an_flags : flags;
  an_lm : bytes; an_nt : bytes;
  an_domain : rstring; an_user : rstring; an_workstation : rstring;
  an_key : bytes;
  an_version : option version;
  an_mic : bytes
}.
Definition client_answers (b : bytes) (a : answer) : Prop :=
  88 <= len b /\ is_message 3 b /\ u32_at b 60 = an_flags a
  /\ holds b 12 (an_lm a) /\ holds b 20 (an_nt a)
  /\ holds b 28 (negotiated_text (an_flags a) (an_domain a))
  /\ holds b 36 (negotiated_text (an_flags a) (an_user a))
  /\ holds b 44 (negotiated_text (an_flags a) (an_workstation a))
  /\ holds b 52 (an_key a)
  /\ version_part b (an_flags a) 64 (an_version a)
  /\ (an_version a = None -> sub b 64 8 = [0; 0; 0; 0; 0; 0; 0; 0])
  /\ sub b 72 16 = an_mic a.
(** Unicode texts, an LM response of 24 bytes, a session key of 16 bytes with
    KEY_EXCH (bit 30) and no key without. *)
Definition usual_answer (a : answer) : Prop :=
  N.testbit (an_flags a) 0 = true
  /\ is_string (an_domain a) /\ is_string (an_user a) /\ is_string (an_workstation a)
  /\ is_buffer 24 (an_lm a)
  /\ is_buffer (if N.testbit (an_flags a) 30 then 16 else 0) (an_key a)
  /\ current_revision (an_version a).

(** 2.2.2.7 and 2.2.2.8: NTProofStr, then the client challenge structure with
    its last four reserved bytes. *)
Definition v2_head : bytes := [1; 1; 0; 0; 0; 0; 0; 0].
Definition v2_response (proof : bytes) (t : filetime) (cc : bytes) (l : list av_pair) : bytes :=
  proof ++ v2_head ++ filetime_bytes t ++ cc ++ [0; 0; 0; 0] ++ pairs_bytes l ++ [0; 0; 0; 0].
(** What the crate makes of such an answer, besides the NT response: the LM
    response is split if NTLM (bit 9) is not set; without a version the MIC is
    looked for 8 bytes too early (C83). *)
Definition answer_read (a : answer) (nt : nt_challenge) : authenticate :=
  mkAuthenticate
    (Some (if N.testbit (an_flags a) 9 then LmV1 (an_lm a)
           else LmV2 (firstn 16 (an_lm a)) (skipn 16 (an_lm a))))
    (Some nt) (seen_text (Some (an_domain a))) (seen_text (Some (an_user a)))
    (seen_text (Some (an_workstation a)))
    (if N.testbit (an_flags a) 30 then Some (an_key a) else None)
    (an_flags a) (an_version a)
    (match an_version a with
     | Some _ => an_mic a
     | None => [0; 0; 0; 0; 0; 0; 0; 0] ++ firstn 8 (an_mic a)
     end) None.
