(** Specification vocabulary for the message builders: sequences of calls of
    the public setters, and what such a sequence asks for. *)
From Verif Require Import Base Nom Unicode Wire Structures Prims Messages Spec.

(** Flag words by bits: [f'] is [f] with bit [i] put to [v]. *)
Definition bit_put (f f' : flags) (i : N) (v : bool) : Prop :=
  forall j, N.testbit f' j = if j =? i then v else N.testbit f j.

(** Flag words MS-NLMP 2.2.2.5 forbids: a reserved bit, both target types,
    no character set, or both LM_KEY and EXTENDED_SESSIONSECURITY. *)
Definition reserved_bits : list N := [28; 27; 26; 24; 21; 18; 14; 10; 8; 3].
Definition invalid_flags (f : flags) : Prop :=
  (exists i, In i reserved_bits /\ N.testbit f i = true)
  \/ (N.testbit f 16 = true /\ N.testbit f 17 = true)
  \/ (N.testbit f 0 = false /\ N.testbit f 1 = false)
  \/ (N.testbit f 19 = true /\ N.testbit f 7 = true).

(** ** NEGOTIATE builder calls *)
Inductive neg_op :=
| SetDomainName (v : option rstring)
| SetWorkstation (v : option rstring).
Definition neg_apply (n : negotiate) (o : neg_op) : negotiate :=
  match o with
  | SetDomainName v => set_domain_name n v
  | SetWorkstation v => set_workstation n v
  end.
Definition neg_build (n : negotiate) (ops : list neg_op) : negotiate := fold_left neg_apply ops n.
Definition sets_domain (o : neg_op) : Prop := match o with SetDomainName _ => True | _ => False end.
Definition sets_workstation (o : neg_op) : Prop := match o with SetWorkstation _ => True | _ => False end.

(** ** CHALLENGE builder calls *)
Inductive chal_op :=
| SetTargetName (v : option rstring)
| AddComputerName (s : rstring) | AddDomainName (s : rstring)
| AddDnsComputerName (s : rstring) | AddDnsDomainName (s : rstring)
| AddDnsTreeName (s : rstring) | AddFlags (f : av_flags) | AddTimestamp (t : filetime)
| AddSingleHost (h : single_host) | AddTargetName (s : rstring) | AddChannelBindings (b : bytes)
| FillFromEnv (e : environment).
Definition chal_apply (P : prims) (c : challenge) (o : chal_op) : challenge :=
  match o with
  | SetTargetName v => set_target_name c v
  | AddComputerName s => target_infos_add_computername c s
  | AddDomainName s => target_infos_add_domainname c s
  | AddDnsComputerName s => target_infos_add_dnscomputername c s
  | AddDnsDomainName s => target_infos_add_dnsdomainname c s
  | AddDnsTreeName s => target_infos_add_dnstreename c s
  | AddFlags f => target_infos_add_flags c f
  | AddTimestamp t => target_infos_add_timestamp c t
  | AddSingleHost h => target_infos_add_singlehost c h
  | AddTargetName s => target_infos_add_targetname c s
  | AddChannelBindings b => target_infos_add_channelbindings c b
  | FillFromEnv e => fill_from_env P e c
  end.
Definition chal_build (P : prims) (c : challenge) (ops : list chal_op) : challenge :=
  fold_left (chal_apply P) ops c.
Definition opt_list {A : Type} (o : option A) : list A :=
  match o with Some a => [a] | None => [] end.
(** What the environment provides: in this order, where set. *)
Definition env_infos (P : prims) (e : environment) : list av_pair :=
  opt_list (opt_map (fun s => AvNbComputerName (to_uppercase P s)) (env_COMPUTERNAME e))
  ++ opt_list (opt_map AvDnsComputerName (env_COMPUTERDNSNAME e))
  ++ opt_list (opt_map (fun s => AvNbDomainName (to_uppercase P s)) (env_USERDOMAIN e))
  ++ opt_list (opt_map AvDnsDomainName (env_USERDNSDOMAIN e)).
(** The target infos one call adds. *)
Definition added (P : prims) (o : chal_op) : list av_pair :=
  match o with
  | SetTargetName _ => []
  | AddComputerName s => [AvNbComputerName s]
  | AddDomainName s => [AvNbDomainName s]
  | AddDnsComputerName s => [AvDnsComputerName s]
  | AddDnsDomainName s => [AvDnsDomainName s]
  | AddDnsTreeName s => [AvDnsTreeName s]
  | AddFlags f => [AvFlags f]
  | AddTimestamp t => [AvTimestamp t]
  | AddSingleHost h => [AvSingleHost h]
  | AddTargetName s => [AvTargetName s]
  | AddChannelBindings b => [AvChannelBindings b]
  | FillFromEnv e => env_infos P e
  end.
Definition all_added (P : prims) (ops : list chal_op) : list av_pair := flat_map (added P) ops.
Definition sets_target (o : chal_op) : Prop := match o with SetTargetName _ => True | _ => False end.
(** The infos followed by one EOL; nothing if there are none. *)
Definition with_eol (l : list av_pair) : list av_pair :=
  match l with [] => [] | _ => l ++ [AvEOL] end.

(** ** The value of the last call of a kind: [v] was given to the last call
    selected by [sel], or there was none and [v] is [v0]. *)
Definition last_set {O V : Type} (sel : O -> Prop) (op : V -> O) (v0 : V) (ops : list O) (v : V) : Prop :=
  (Forall (fun o => ~ sel o) ops /\ v = v0)
  \/ exists pre post, ops = pre ++ op v :: post /\ Forall (fun o => ~ sel o) post.

(** ** AUTHENTICATE: everything but the session key and its flag is the same. *)
Definition same_but_key (a a' : authenticate) : Prop :=
  a_lm a' = a_lm a /\ a_nt a' = a_nt a /\ a_domain a' = a_domain a /\ a_user a' = a_user a
  /\ a_workstation a' = a_workstation a /\ a_version a' = a_version a /\ a_mic a' = a_mic a
  /\ a_exported_key a' = a_exported_key a
  /\ forall i, i <> 30 -> N.testbit (a_flags a') i = N.testbit (a_flags a) i.
