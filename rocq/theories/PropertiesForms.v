(** Property theorems proved in [FactsForms.v]; generated by tools/gen.py. *)
From Coq Require Import ZifyBool ZifyNat ZifyN Ascii String.
From Verif Require Import Base Nom Unicode Wire Structures Prims Messages Crypto Client Debug Log Print Spec SpecDebug SpecLog SpecPrint SpecForms
  Lib Samples FactsDebug FactsLog FactsPrint FactsForms.

(** * C79: Printed messages and structures can be told apart *)
(** Every string: between quotes, with each character as it is or as an escape. *)
Theorem C79_every_string : forall esc s, is_string s ->
  exists l, str_debug esc s = [34] ++ concat l ++ [34] /\ Forall2 (written_as esc) s l.
Proof. exact C79_every_string_lem. Qed.
Print Assumptions C79_every_string.
(** Every structure is printed as written out in the specification. *)
Theorem C79_structures_form : forall esc,
  (forall x, version_debug x = version_form x)
  /\ (forall x, field_debug x = field_form x)
  /\ (forall x, filetime_debug x = filetime_form x)
  /\ (forall x, single_host_debug x = host_form x)
  /\ (forall x, av_flags_debug x = av_flags_form x)
  /\ (forall x, is_buffer 4 (sg_pad x) -> signature_debug x = signature_form x)
  /\ (forall x, av_pair_debug esc x = pair_form (str_debug esc) x)
  /\ (forall x, valid_lm x -> lm_challenge_debug x = lm_form x)
  /\ (forall x, valid_nt x -> nt_challenge_debug esc x = nt_form (str_debug esc) x)
  /\ (forall i, exists n, In (av_id_code i, n) pair_names /\ av_id_debug i = text n).
Proof. exact C79_structures_form_lem. Qed.
Print Assumptions C79_structures_form.
(** The state a client is in, printed. *)
Theorem C79_state_form : forall esc s, client_state_debug esc s =
  match s with
  | StNew => text "New"
  | StNegotiateSent n => text "NegociateSent(" ++ negotiate_debug esc n ++ text ")"
  | StChallengeReceived n c => text "ChallengeReceived(" ++ negotiate_debug esc n ++ text ", " ++ challenge_debug esc c ++ text ")"
  | StAuthenticateSent n c a => text "AuthenticateSent(" ++ negotiate_debug esc n ++ text ", " ++ challenge_debug esc c ++ text ", "
      ++ authenticate_debug esc a ++ text ")"
  end.
Proof. exact C79_state_form_lem. Qed.
Print Assumptions C79_state_form.
Example C79_forms_ex :
  is_string [65; 0; 773; 39] /\ str_debug (fun c => c =? 773) [65; 0; 773; 39] = [34] ++ text "A\0\u{305}'" ++ [34]
  /\ hex_numeral (text "305") 773
  /\ av_pair_debug (fun _ => false) (AvFlags (mkAvFlags false true false))
     = text "MsvAvFlags(MsvAvFlags { account_authentication_constrained: false, mic_present: true, generated_spn_from_untrusted_source: false })"
  /\ av_pair_debug (fun _ => false) (AvChannelBindings [1; 255; 0]) = text "MsvAvChannelBindings([1, 255, 0])"
  /\ lm_challenge_debug (LmV2 (repeat 10 16) (repeat 255 8))
     = text "V2(Lmv2Challenge { response: 0a0a0a0a0a0a0a0a0a0a0a0a0a0a0a0a, challenge_from_client: ffffffffffffffff })".
Proof. exact C79_forms_ex_lem. Qed.
