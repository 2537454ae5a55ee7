(** Further cases that meet the hypotheses of earlier theorems. *)
From Coq Require Import ZifyBool ZifyNat ZifyN.
From Verif Require Import Base Nom Unicode Wire Structures Prims Messages Crypto Client Win Spec SpecBuild SpecCrypto SpecStream SpecWin Lib Encode Decode RoundTrip Parse
  Samples SamplesClient SamplesWin FactsEncode FactsDecode FactsBuild FactsStream FactsWin SpecConform SamplesConform FactsConform.

(** ** C17 *)
Example C17_sizes_ex_lem : forall P,
  let c := chal_build P challenge_default sample_ops in
  host_le cfg_debug = true
  /\ len (utf16le (match get_target_name c with Some s => s | None => [] end)) = 16
  /\ len (av_list_bytes cfg_debug (get_target_infos c)) = 40
  /\ exists b, serialize cfg_debug (challenge_ser cfg_debug c) = Val b /\ challenge_de cfg_debug (b ++ [1; 2; 3]) = POk [] c.
Proof.
  intros P c. unfold c. clear c. rewrite C16_ex_lem. split; [reflexivity|]. split; [reflexivity|]. split; [reflexivity|].
  eexists. split; [vm_compute; reflexivity|]. vm_compute. reflexivity.
Qed.
(** ** C51 *)
(** A package whose completion of the first token fails (SEC_E_INVALID_TOKEN, 0x80090308). *)
Example C51_errors_reported_ex_lem :
  let pkg log := match log with CompleteToken _ _ :: _ => mkReply 2148074248 0 [] | _ => rounds_package log end in
  let log := [AcquireCredentials NEGOTIATE_PACKAGE] in
  exists log' w', perform cfg_debug pkg log rounds_client WNegotiate = (log', w', Val (inr (StatusError 2148074248)))
    /\ wants_completion (status (pkg (opening rounds_client WNegotiate :: log)))
    /\ log' = CompleteToken 9 [1; 2; 3] :: opening rounds_client WNegotiate :: log.
Proof. intros pkg log. eexists _, _. split; [vm_compute; reflexivity|]. split; [right; vm_compute; reflexivity|vm_compute; reflexivity]. Qed.
(** ** C75 *)
(** An AUTHENTICATE with an NTLMv2 response of 34 bytes, whose only AV pair is announced ten bytes longer. *)
Example C75_authenticate_ex_lem :
  let b := NTLMSSP ++ le32 3 ++ repeat 0 8 ++ (le16 34 ++ le16 34 ++ le32 80) ++ repeat 0 32 ++ le32 1 ++ repeat 0 16
           ++ ([1; 1] ++ repeat 0 6 ++ repeat 5 8 ++ repeat 7 8 ++ repeat 0 4 ++ [1; 0; 12; 0; 65; 0]) in
  is_bytes b /\ len b = 114 /\ authenticate_de cfg_debug b = PErr (EIncomplete 10)
  /\ authenticate_de cfg_debug (b ++ repeat 9 10) = PErr (EIncomplete 10)
  /\ authenticate_de cfg_debug (firstn 70 b) = PErr EError
  /\ authenticate_de cfg_debug (firstn 100 b) = PPanic PSlice.
Proof. intros b. split; [closed_valid|]. repeat split; vm_compute; reflexivity. Qed.
(** ** C76 *)
Example C76_others_ex_lem :
  let n := negotiate_bytes sample_negotiate in
  let a := authenticate_bytes cfg_debug sample_authenticate in
  is_bytes n /\ is_bytes a
  /\ (exists m, negotiate_de cfg_debug n = POk [] m /\ oem_size (n_domain m) <> 0 /\ oem_size (n_workstation m) <> 0)
  /\ (exists m, authenticate_de cfg_debug a = POk [] m /\ lm_size (a_lm m) = 24 /\ 28 < nt_size (a_nt m)
       /\ text_size (a_domain m) <> 0 /\ text_size (a_user m) <> 0 /\ text_size (a_workstation m) <> 0
       /\ key_size (a_session_key m) = 16).
Proof.
  intros n a. split; [closed_valid|]. split; [closed_valid|]. split; (eexists; split; [vm_compute; reflexivity|]).
  - split; vm_compute; discriminate.
  - repeat split; vm_compute; try reflexivity; discriminate.
Qed.
(** ** C98 *)
(** A pair of unknown kind first, and flags with an unknown bit first: accepted, with no pairs. *)
Example C98_first_ex_lem :
  let message infos := NTLMSSP ++ le32 2 ++ repeat 0 8 ++ le32 5 ++ repeat 7 8 ++ repeat 0 8
                       ++ le16 (len infos) ++ le16 (len infos) ++ le32 48 ++ infos in
  let b := message (pairs_bytes [] ++ le16 11 ++ le16 2 ++ [65; 0] ++ [0; 0; 0; 0]) in
  let b' := message (pairs_bytes [] ++ [6; 0; 4; 0] ++ le32 8 ++ [0; 0; 0; 0]) in
  (is_bytes b /\ holds b 40 (pairs_bytes [] ++ le16 11 ++ le16 2 ++ [65; 0] ++ [0; 0; 0; 0])
   /\ exists c, challenge_de cfg_debug b = POk [] c /\ ch_target_infos c = [])
  /\ (is_bytes b' /\ holds b' 40 (pairs_bytes [] ++ [6; 0; 4; 0] ++ le32 8 ++ [0; 0; 0; 0])
   /\ exists c, challenge_de cfg_debug b' = POk [] c /\ ch_target_infos c = []).
Proof.
  intros message b b'.
  split; (split; [closed_valid|]; split; [split; vm_compute; reflexivity|]; eexists; split; [vm_compute; reflexivity|reflexivity]).
Qed.
