(** Property theorems proved in [FactsAccount.v]; generated by tools/gen.py. *)
From Verif Require Import Base Nom Unicode Wire Structures Prims Messages Crypto Client Spec SpecBuild SpecCrypto SpecClient Lib Encode Decode RoundTrip Parse Samples FactsEncode FactsDecode FactsBuild DesKey RealPrims FactsCrypto SamplesClient History Reply FactsClient FactsAccount.

(** * C35: Creating a client never panics *)
(** Exactly when there is a client: the password must have an LM hash, and the host a name source. *)
Theorem C35_client_exists_iff : forall cfg P e level user dom pw target,
  (exists c, new_with_domain cfg P e level user dom pw target = Val c)
  <-> lm_hashable P pw /\ usable_host_name e.
Proof. exact C35_client_exists_iff_lem. Qed.
Print Assumptions C35_client_exists_iff.
(** In particular for every ASCII password, however long, and every user name,
    domain and target, on a host with a name source. *)
Theorem C35_ascii_password : forall cfg P e level username pw target, prims_ok P ->
  is_ascii pw -> usable_host_name e -> exists c, client_new cfg P e level username pw target = Val c.
Proof. exact C35_ascii_password_lem. Qed.
Print Assumptions C35_ascii_password.
(** The password "aaaaaae" with an acute accent on the e; an empty /etc/hostname. *)
Theorem C35_client_new_refuted :
  ~ (forall cfg P e level username pw target, prims_ok P -> usable_host_name e ->
       exists c, client_new cfg P e level username pw target = Val c)
  /\ ~ (forall cfg P e level username pw target, prims_ok P -> is_ascii pw ->
       exists c, client_new cfg P e level username pw target = Val c).
Proof. exact C35_client_new_refuted_lem. Qed.
Print Assumptions C35_client_new_refuted.
(** Neither the user name nor the target can make it fail. *)
Theorem C35_names_irrelevant : forall cfg P e level level' username username' pw target target',
  (exists c, client_new cfg P e level username pw target = Val c) ->
  exists c, client_new cfg P e level' username' pw target' = Val c.
Proof. exact C35_names_irrelevant_lem. Qed.
Print Assumptions C35_names_irrelevant.
(** A password with characters outside ASCII that has an LM hash: "e-acute euro H". *)
Example C35_ex : usable_host_name bare_env /\ usable_host_name host_env /\ is_ascii str_Password
  /\ (exists c, new_with_domain cfg_debug real_prims bare_env 3 str_User str_Domain str_accent [] = Val c).
Proof. exact C35_ex_lem. Qed.

(** * C37: Account name parsing *)
Theorem C37_backslash : forall cfg P e level user dom pw target, ~ In BACKSLASH dom ->
  client_new cfg P e level (dom ++ BACKSLASH :: user) pw target = new_with_domain cfg P e level user dom pw target.
Proof. exact C37_backslash_lem. Qed.
Print Assumptions C37_backslash.
Theorem C37_at : forall cfg P e level user dom pw target, ~ In BACKSLASH (user ++ AT :: dom) -> ~ In AT user ->
  client_new cfg P e level (user ++ AT :: dom) pw target = new_with_domain cfg P e level user dom pw target.
Proof. exact C37_at_lem. Qed.
Print Assumptions C37_at.
Theorem C37_plain : forall cfg P e level user pw target, ~ In BACKSLASH user -> ~ In AT user ->
  client_new cfg P e level user pw target = new_with_domain cfg P e level user [] pw target.
Proof. exact C37_plain_lem. Qed.
Print Assumptions C37_plain.
(** Every name is in one of these cases, and the parts are kept in the client. *)
Theorem C37_nothing_lost : forall cfg P e level username pw target c,
  client_new cfg P e level username pw target = Val c ->
  (exists dom user, username = dom ++ BACKSLASH :: user /\ ~ In BACKSLASH dom
     /\ cl_domain c = dom /\ cl_username c = user)
  \/ (exists dom user, username = user ++ AT :: dom /\ ~ In BACKSLASH username /\ ~ In AT user
     /\ cl_domain c = dom /\ cl_username c = user)
  \/ (~ In BACKSLASH username /\ ~ In AT username /\ cl_domain c = [] /\ cl_username c = username).
Proof. exact C37_nothing_lost_lem. Qed.
Print Assumptions C37_nothing_lost.
(** "Domain\User@Domain\" and "User@Domain" *)
Example C37_ex : ~ In BACKSLASH str_Domain /\ ~ In BACKSLASH (str_User ++ AT :: str_Domain) /\ ~ In AT str_User
  /\ exists c, client_new cfg_debug real_prims host_env 3 (str_Domain ++ BACKSLASH :: str_User ++ AT :: str_Domain ++ [BACKSLASH])
                 str_Password [] = Val c
       /\ cl_username c = str_User ++ AT :: str_Domain ++ [BACKSLASH].
Proof. exact C37_ex_lem. Qed.

(** * C38: Workstation name *)
(** Every client that was made has the workstation name of its environment,
    and there is only one. *)
Theorem C38_workstation : forall cfg P e level user dom pw target c,
  new_with_domain cfg P e level user dom pw target = Val c ->
  workstation_name P e (cl_workstation c) /\ forall w, workstation_name P e w -> w = cl_workstation c.
Proof. exact C38_workstation_lem. Qed.
Print Assumptions C38_workstation.
(** Trimming is determined by its description. *)
Theorem C38_trimmed_unique : forall s t t', trimmed s t -> trimmed s t' -> t = t'.
Proof. exact C38_trimmed_unique_lem. Qed.
Print Assumptions C38_trimmed_unique.
(** " my-host.example.org\r\nother.line\n": "MY-HOST" *)
Example C38_ex :
  let e := mkEnv None None None None (Some ([32; 109; 121; 45; 104; 111; 115; 116; 46; 101; 120; 97; 109; 112; 108; 101;
             46; 111; 114; 103; 13; 10; 111; 116; 104; 101; 114; 46; 108; 105; 110; 101; 10])) in
  (exists c, new_with_domain cfg_debug real_prims e 3 str_User str_Domain str_Password [] = Val c
     /\ cl_workstation c = Some [77; 89; 45; 72; 79; 83; 84])
  /\ trimmed [32; 109; 121; 45; 104; 111; 115; 116] [109; 121; 45; 104; 111; 115; 116].
Proof. exact C38_ex_lem. Qed.
