(** Property theorems proved in [FactsCreation.v]; generated by tools/gen.py. *)
From Verif Require Import Base Nom Unicode Wire Structures Prims Messages Crypto Client Spec SpecBuild SpecCrypto SpecClient SpecRemote Lib Encode Decode RoundTrip Parse Samples Cost FactsCost Effort FactsEncode FactsDecode FactsBuild DesKey Upper RealPrims FactsCrypto SamplesClient History Reply FactsClient FactsEndian FactsEffort FactsRemote SamplesLabour Labour FactsLabour FactsAccount Creation SpecCreation FactsCreation.

(** * C113: Creating a client takes work linear in the account *)
(** What the counting constructors return is what the constructors return. *)
Theorem C113_same : forall cfg P e level username user dom pw target,
  snd (client_new_labour cfg P e level username pw target) = client_new cfg P e level username pw target
  /\ snd (new_with_domain_labour cfg P e level user dom pw target) = new_with_domain cfg P e level user dom pw target.
Proof. exact C113_same_lem. Qed.
Print Assumptions C113_same.
(** Creating a client takes work linear in the account, the password and the name of
    the host, whether there is a client in the end or the call panics. *)
Theorem C113_linear : forall cfg P k e level username pw target,
  prims_ok P -> grows P k -> valid_env e -> is_string username -> is_string pw ->
  fst (client_new_labour cfg P e level username pw target)
  <= (4 + 5 * k) * len (utf8 username) + 3 * len (utf8 pw) + (5 + k) * host_bytes e + 14 * k + 135.
Proof. exact C113_linear_lem. Qed.
Print Assumptions C113_linear.
Theorem C113_upper : forall s, is_string s -> len (utf8 (to_uppercase real_prims s)) <= 3 * len (utf8 s).
Proof. exact C113_upper_lem. Qed.
Print Assumptions C113_upper.
(** False: twice as long is enough.  The Greek letter iota with dialytika and tonos becomes three. *)
Theorem C113_upper_refuted : ~ (forall s, is_string s -> len (utf8 (to_uppercase real_prims s)) <= 2 * len (utf8 s)).
Proof. exact C113_upper_refuted_lem. Qed.
Print Assumptions C113_upper_refuted.
(** So with the functions of the crates the code uses: *)
Theorem C113_real : forall cfg e level username pw target, valid_env e -> is_string username -> is_string pw ->
  fst (client_new_labour cfg real_prims e level username pw target)
  <= 19 * len (utf8 username) + 3 * len (utf8 pw) + 8 * host_bytes e + 177.
Proof. exact C113_real_lem. Qed.
Print Assumptions C113_real.
(** The whole life of a client, from its creation to its reply. *)
Theorem C113_whole : forall cfg P k e level user dom pw target c r b rest ch,
  made cfg P e level user dom pw target c -> grows P k -> is_entropy r ->
  is_bytes b -> challenge_de cfg b = POk rest ch ->
  fst (new_with_domain_labour cfg P e level user dom pw target) + fst (send_negociate_labour c)
  + fst (challenge_work cfg b)
  + fst (send_authenticate_labour cfg P (run cfg P c [OpNegociate; OpRecvChallenge ch]) r)
  <= 26 * len b + (31 + 5 * k) * len (utf8 user) + 38 * len (utf8 dom) + 3 * len (utf8 pw) + (5 + 31 * k) * host_bytes e
     + 14 * k + 2331.
Proof. exact C113_whole_lem. Qed.
Print Assumptions C113_whole.
Example C113_ex : let account := str_Domain ++ 92 :: str_User in let b := challenge_bytes cfg_debug sealed_challenge in
  grows zero_prims 1 /\ grows real_prims 3 /\ valid_env host_env /\ is_string account /\ is_string str_Password
  /\ made cfg_debug zero_prims host_env 3 str_User str_Domain str_Password str_target (zero_client 3)
  /\ client_new cfg_debug zero_prims host_env 3 account str_Password str_target = Val (zero_client 3)
  /\ host_bytes host_env = 8
  /\ fst (client_new_labour cfg_debug zero_prims host_env 3 account str_Password str_target) = 229
  /\ is_bytes b /\ challenge_de cfg_debug b = POk [] sealed_challenge /\ is_entropy sample_entropy
  /\ len (utf8 (to_uppercase real_prims [912])) = 6 /\ len (utf8 [912]) = 2.
Proof. exact C113_ex_lem. Qed.
