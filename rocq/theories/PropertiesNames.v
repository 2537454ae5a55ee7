(** Property theorems proved in [FactsNames.v]; generated by tools/gen.py. *)
From Verif Require Import Base Nom Unicode Wire Structures Prims Messages Crypto Client Spec SpecBuild SpecCrypto SpecClient SpecTrace SpecNames Lib Encode Decode RoundTrip Parse Samples FactsEncode FactsDecode FactsBuild DesKey RealPrims FactsCrypto SamplesClient History Reply FactsClient FactsReply FactsTrace Inject SamplesNames FactsNames.

(** * C92: Responses are tied to the names of the account *)
(** Clients whose user names are the same in upper case send the same
    responses, flags, domain and workstation and keep the same session key. *)
Theorem C92_user_case : forall cfg P e level user user' dom pw target target' c c' h h' ch r b b' K K',
  made cfg P e level user dom pw target c -> made cfg P e level user' dom pw target' c' ->
  to_uppercase P user = to_uppercase P user' ->
  concludes cfg P c h ch r b K -> concludes cfg P c' h' ch r b' K' ->
  K = K' /\ (forall o, In o [12; 20; 28; 44; 52] -> field_data b o = field_data b' o) /\ u32_at b 60 = u32_at b' 60.
Proof. exact C92_user_case_lem. Qed.
Print Assumptions C92_user_case.
(** Levels 0 to 2: the responses and the session key are the same for every
    account with that password. *)
Theorem C92_names_ignored : forall cfg P e e' level user user' dom dom' pw target target' c c' h h' ch r b b' K K', level <= 2 ->
  made cfg P e level user dom pw target c -> made cfg P e' level user' dom' pw target' c' ->
  concludes cfg P c h ch r b K -> concludes cfg P c' h' ch r b' K' ->
  K = K' /\ (forall o, In o [12; 20; 52] -> field_data b o = field_data b' o).
Proof. exact C92_names_ignored_lem. Qed.
Print Assumptions C92_names_ignored.
(** Levels 3 to 5: accounts with the same LM response to the same challenge
    have the same upper-cased user name followed by the domain, unless
    HMAC-MD5 gives the same result under two keys or for two texts. *)
Theorem C92_names_bound : forall cfg P e e' level level' user user' dom dom' pw ch r b b',
  3 <= level -> 3 <= level' -> host_le cfg = true ->
  replies cfg P e level user dom pw ch r b -> replies cfg P e' level' user' dom' pw ch r b' ->
  field_data b 12 = field_data b' 12 ->
  to_uppercase P user ++ dom = to_uppercase P user' ++ dom'
  \/ collision P (NTOWFv1 P pw) (utf16le (to_uppercase P user ++ dom)) (utf16le (to_uppercase P user' ++ dom'))
  \/ key_collision P (NTOWFv2 P pw user dom) (NTOWFv2 P pw user' dom') (ch_server_challenge ch ++ e_client_challenge r).
Proof. exact C92_names_bound_lem. Qed.
Print Assumptions C92_names_bound.
(** The case of the domain counts, at levels 3 to 5. *)
Theorem C92_domain_case_refuted :
  ~ (forall cfg P e level user dom dom' pw target target' c c' h h' ch r b b' K K',
      made cfg P e level user dom pw target c -> made cfg P e level user dom' pw target' c' ->
      to_uppercase P dom = to_uppercase P dom' ->
      concludes cfg P c h ch r b K -> concludes cfg P c' h' ch r b' K' ->
      field_data b 12 = field_data b' 12).
Proof. exact C92_domain_case_refuted_lem. Qed.
Print Assumptions C92_domain_case_refuted.
(** The responses do not say where the user name ends. *)
Theorem C92_names_told_apart_refuted :
  ~ (forall cfg P e level user user' dom dom' pw target target' c c' h h' ch r b b' K K', 3 <= level ->
      made cfg P e level user dom pw target c -> made cfg P e level user' dom' pw target' c' ->
      concludes cfg P c h ch r b K -> concludes cfg P c' h' ch r b' K' ->
      (forall o, In o [12; 20; 52] -> field_data b o = field_data b' o) ->
      to_uppercase P user = to_uppercase P user' /\ dom = dom').
Proof. exact C92_names_told_apart_refuted_lem. Qed.
Print Assumptions C92_names_told_apart_refuted.
Example C92_ex :
  (forall level, In level [0; 5] ->
    made cfg_debug real_prims bare_env level str_User str_Domain str_Password [] (bare_client real_prims level str_User str_Domain str_Password)
    /\ made cfg_debug real_prims bare_env level str_USER str_Domain str_Password [] (bare_client real_prims level str_USER str_Domain str_Password)
    /\ concludes cfg_debug real_prims (bare_client real_prims level str_User str_Domain str_Password) (bare_history sealed_challenge)
         sealed_challenge sample_entropy (bare_reply level str_User str_Domain str_Password sealed_challenge)
         (bare_key level str_User str_Domain str_Password sealed_challenge)
    /\ concludes cfg_debug real_prims (bare_client real_prims level str_USER str_Domain str_Password) (bare_history sealed_challenge)
         sealed_challenge sample_entropy (bare_reply level str_USER str_Domain str_Password sealed_challenge)
         (bare_key level str_USER str_Domain str_Password sealed_challenge))
  /\ to_uppercase real_prims str_User = to_uppercase real_prims str_USER
  /\ bare_reply 5 str_User str_Domain str_Password sealed_challenge <> bare_reply 5 str_USER str_Domain str_Password sealed_challenge
  /\ field_data (bare_reply 5 str_User str_Domain str_Password sealed_challenge) 12
     = [134; 195; 80; 151; 172; 156; 236; 16; 37; 84; 118; 74; 87; 204; 204; 25; 170; 170; 170; 170; 170; 170; 170; 170].
Proof. exact C92_ex_lem. Qed.
