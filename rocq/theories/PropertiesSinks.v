(** Property theorems proved in [FactsSinks.v]; generated by tools/gen.py. *)
From Coq Require Import Ascii String.
From Verif Require Import Base Nom Unicode Wire Debug Lib FactsBuild Sinks SpecSinks FactsSinks.

(** * C116: Printing to a formatter that fails *)
(** Printing flags writes the text of C46, or reports the failure of the formatter,
    which then has a beginning of that text and is called no more. *)
Theorem C116_flags : forall f, prints (flags_fmt f) (flags_debug f).
Proof. exact C116_flags_lem. Qed.
Print Assumptions C116_flags.
(** The same of keys, challenges and the MIC, with the text of C47. *)
Theorem C116_buffers : forall b, prints (buffer_fmt b) (buffer_debug b).
Proof. exact C116_buffers_lem. Qed.
Print Assumptions C116_buffers.
(** A formatter that does not fail gets all the text. *)
Theorem C116_whole : forall fmt t s, prints fmt t -> Forall (fun a => a = Takes) (s_plan s) ->
  exists s', fmt s = (true, s') /\ s_got s' = s_got s ++ t.
Proof. exact C116_whole_lem. Qed.
Print Assumptions C116_whole.
Example C116_ex :
  flags_fmt 3 (mkSink [] [Takes; Breaks 5; Takes]) = (false, mkSink (text "NTLM_NEGOTIATE_OEM|NTLM") [Takes])
  /\ flags_fmt 3 (mkSink [] [Takes]) = (true, mkSink (text "NTLM_NEGOTIATE_OEM|NTLMSSP_NEGOTIATE_UNICODE") [])
  /\ buffer_fmt [5; 171; 255] (mkSink [] [Takes; Takes; Breaks 1]) = (false, mkSink (text "05a") [])
  /\ buffer_fmt [5; 171; 255] (mkSink [] [Takes; Breaks 0]) = (false, mkSink (text "0") [])
  /\ buffer_fmt [5; 171; 255] (mkSink [] []) = (true, mkSink (text "05abff") [])
  /\ Forall (fun a => a = Takes) (s_plan (mkSink [] [Takes])).
Proof. exact C116_ex_lem. Qed.
