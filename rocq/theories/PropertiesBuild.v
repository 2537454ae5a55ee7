(** Property theorems proved in [FactsBuild.v]; generated by tools/gen.py. *)
From Verif Require Import Base Nom Unicode Wire Structures Prims Messages Spec SpecBuild Lib Encode Decode RoundTrip Parse Samples FactsEncode FactsDecode FactsBuild.

(** * C13: Flag set/clear/query algebra *)
(** Bit numbers up to 31. *)
Theorem C13_flag_algebra : forall cfg f i, is_u32 f -> i <= 31 ->
  api_has_flag cfg f i = Val (N.testbit f i)
  /\ (exists f', api_set_flag cfg f i = Val f' /\ is_u32 f' /\ bit_put f f' i true
                 /\ api_has_flag cfg f' i = Val true)
  /\ (exists f', api_clear_flag cfg f i = Val f' /\ is_u32 f' /\ bit_put f f' i false
                 /\ api_has_flag cfg f' i = Val false).
Proof. exact C13_flag_algebra_lem. Qed.
Print Assumptions C13_flag_algebra.
Example C13_flag_algebra_ex : is_u32 2181038080 /\ api_has_flag cfg_debug 2181038080 31 = Val true
  /\ api_set_flag cfg_debug 2181038080 0 = Val 2181038081
  /\ api_clear_flag cfg_debug 2181038080 31 = Val 33554432.
Proof. exact C13_flag_algebra_ex_lem. Qed.
(** Larger bit numbers: a panic in debug builds, an alias in release builds. *)
Theorem C13_large_bits : forall cfg f i, 31 < i ->
  if debug cfg
  then api_has_flag cfg f i = Panic PDebugAssert /\ api_set_flag cfg f i = Panic PDebugAssert
       /\ api_clear_flag cfg f i = Panic PDebugAssert
  else api_has_flag cfg f i = api_has_flag cfg f (i mod 32)
       /\ api_set_flag cfg f i = api_set_flag cfg f (i mod 32)
       /\ api_clear_flag cfg f i = api_clear_flag cfg f (i mod 32).
Proof. exact C13_large_bits_lem. Qed.
Print Assumptions C13_large_bits.
Example C13_large_bits_ex : api_set_flag cfg_release 0 34 = Val 4 /\ api_set_flag cfg_debug 0 34 = Panic PDebugAssert.
Proof. exact C13_large_bits_ex_lem. Qed.

(** * C14: Strict mode rejects invalid flag words *)
(** Strict mode does not reject forbidden flag words. *)
Theorem C14_strict_flags_refuted :
  ~ (forall cfg f rest, strict cfg = true -> is_u32 f -> invalid_flags f ->
     forall r v, flags_de cfg (le32 f ++ rest) <> POk r v).
Proof. exact C14_strict_flags_refuted_lem. Qed.
Print Assumptions C14_strict_flags_refuted.
(** Every word is accepted, in every build. *)
Theorem C14_all_flags_accepted : forall cfg f rest, is_u32 f -> flags_de cfg (le32 f ++ rest) = POk rest f.
Proof. exact C14_all_flags_accepted_lem. Qed.
Print Assumptions C14_all_flags_accepted.
Example C14_all_flags_accepted_ex : strict cfg_strict = true /\ is_u32 4294967292 /\ invalid_flags 4294967292.
Proof. exact C14_all_flags_accepted_ex_lem. Qed.
(** All that [strict] changes: a CHALLENGE must have a zero reserved field. *)
Theorem C14_strict_effect : forall cfg b,
  let lenient := mkConfig (debug cfg) false (windows cfg) (host_le cfg) in
  negotiate_de cfg b = negotiate_de lenient b
  /\ authenticate_de cfg b = authenticate_de lenient b
  /\ challenge_de cfg b =
     (if strict cfg && negb (beq_bytes (sub b 32 8) [0; 0; 0; 0; 0; 0; 0; 0])
      then PErr EError else challenge_de lenient b).
Proof. exact C14_strict_effect_lem. Qed.
Print Assumptions C14_strict_effect.
Example C14_strict_effect_ex : exists b c, challenge_de cfg_strict b = PErr EError
  /\ challenge_de cfg_debug b = POk [] c.
Proof. exact C14_strict_effect_ex_lem. Qed.

(** * C15: NEGOTIATE builder keeps flags in step *)
(** Any sequence of setter calls on any message. *)
Theorem C15_negotiate_builder : forall n0 ops, is_u32 (n_flags n0) ->
  let n := neg_build n0 ops in
  last_set sets_domain SetDomainName (n_domain n0) ops (get_domain_name n)
  /\ last_set sets_workstation SetWorkstation (n_workstation n0) ops (get_workstation n)
  /\ (Exists sets_domain ops -> N.testbit (n_flags n) 12 = is_some (get_domain_name n))
  /\ (Exists sets_workstation ops -> N.testbit (n_flags n) 13 = is_some (get_workstation n))
  /\ (Forall (fun o => ~ sets_domain o) ops -> N.testbit (n_flags n) 12 = N.testbit (n_flags n0) 12)
  /\ (Forall (fun o => ~ sets_workstation o) ops -> N.testbit (n_flags n) 13 = N.testbit (n_flags n0) 13)
  /\ (forall i, i <> 12 -> i <> 13 -> N.testbit (n_flags n) i = N.testbit (n_flags n0) i)
  /\ n_version n = n_version n0 /\ is_u32 (n_flags n).
Proof. exact C15_negotiate_builder_lem. Qed.
Print Assumptions C15_negotiate_builder.
Theorem C15_fresh_negotiate : forall ops,
  let n := neg_build negotiate_default ops in
  N.testbit (n_flags n) 12 = is_some (get_domain_name n)
  /\ N.testbit (n_flags n) 13 = is_some (get_workstation n)
  /\ (forall i, i <> 12 -> i <> 13 -> N.testbit (n_flags n) i = (i =? 0))
  /\ n_version n = None.
Proof. exact C15_fresh_negotiate_lem. Qed.
Print Assumptions C15_fresh_negotiate.
Example C15_ex :
  neg_build negotiate_default [SetDomainName (Some str_Domain); SetWorkstation (Some str_COMPUTER);
     SetDomainName (Some str_User); SetWorkstation None]
  = mkNegotiate 4097 (Some str_User) None None.
Proof. exact C15_ex_lem. Qed.

(** * C16: CHALLENGE builder keeps the target info list well formed *)
Theorem C16_challenge_builder : forall P ops,
  let c := chal_build P challenge_default ops in
  get_target_infos c = with_eol (all_added P ops)
  /\ last_set sets_target SetTargetName None ops (get_target_name c)
  /\ N.testbit (ch_flags c) 23 = negb (is_nil (get_target_infos c))
  /\ N.testbit (ch_flags c) 2 = is_some (get_target_name c)
  /\ (forall i, i <> 2 -> i <> 23 -> N.testbit (ch_flags c) i = (i =? 0))
  /\ ch_server_challenge c = [0; 0; 0; 0; 0; 0; 0; 0] /\ ch_version c = None.
Proof. exact C16_challenge_builder_lem. Qed.
Print Assumptions C16_challenge_builder.
Theorem C16_single_eol : forall P ops, ~ In AvEOL (all_added P ops).
Proof. exact C16_single_eol_lem. Qed.
Print Assumptions C16_single_eol.
Example C16_ex : forall P,
  chal_build P challenge_default sample_ops
  = mkChallenge (Some str_COMPUTER) 8388613 (repeat 0 8)
      [AvFlags (mkAvFlags false true false); AvNbDomainName str_Domain; AvTimestamp (mkFileTime 1 2); AvEOL] None.
Proof. exact C16_ex_lem. Qed.

(** * C17: Built CHALLENGE messages always decode *)
(** Built from representable values that fit, a CHALLENGE decodes to itself. *)
Theorem C17_built_challenge_decodes : forall cfg P ops tail, host_le cfg = true ->
  let c := chal_build P challenge_default ops in
  Forall valid_av_pair (all_added P ops) -> Forall (carried_av cfg) (all_added P ops) ->
  (forall s, In (SetTargetName (Some s)) ops -> plain_string s /\ s <> []) ->
  len (utf16le (match get_target_name c with Some s => s | None => [] end)) <= 65535 ->
  len (av_list_bytes cfg (get_target_infos c)) <= 65535 ->
  exists b, serialize cfg (challenge_ser cfg c) = Val b /\ challenge_de cfg (b ++ tail) = POk [] c.
Proof. exact C17_built_challenge_decodes_lem. Qed.
Print Assumptions C17_built_challenge_decodes.
Example C17_ex : forall P,
  Forall valid_av_pair (all_added P sample_ops) /\ Forall (carried_av cfg_debug) (all_added P sample_ops)
  /\ (forall s, In (SetTargetName (Some s)) sample_ops -> plain_string s /\ s <> []).
Proof. exact C17_ex_lem. Qed.

(** * C18: AUTHENTICATE key setter keeps KEY_EXCH in step *)
Theorem C18_key_setter : forall a ks k, is_u32 (a_flags a) ->
  let a' := fold_left set_encrypted_random_session_key (ks ++ [k]) a in
  get_encrypted_random_session_key a' = k
  /\ N.testbit (a_flags a') 30 = is_some k
  /\ same_but_key a a' /\ is_u32 (a_flags a').
Proof. exact C18_key_setter_lem. Qed.
Print Assumptions C18_key_setter.
Example C18_ex :
  a_flags (fold_left set_encrypted_random_session_key [Some (repeat 1 16); None; Some (repeat 2 16)] sample_authenticate) = 1107296257
  /\ a_flags (fold_left set_encrypted_random_session_key [Some (repeat 1 16); None] sample_authenticate) = 33554433.
Proof. exact C18_ex_lem. Qed.

(** * C52: Filling a CHALLENGE from the environment *)
(** [l] are the target infos of [c] without the final EOL (none if [c] has none). *)
Theorem C52_fill_from_env : forall P e c l, get_target_infos c = with_eol l ->
  let c' := fill_from_env P e c in
  get_target_infos c' = with_eol (l ++ env_infos P e)
  /\ N.testbit (ch_flags c') 23 = (is_nil l && negb (is_nil (env_infos P e))) || N.testbit (ch_flags c) 23
  /\ (forall i, i <> 23 -> N.testbit (ch_flags c') i = N.testbit (ch_flags c) i)
  /\ ch_target_name c' = ch_target_name c /\ ch_server_challenge c' = ch_server_challenge c
  /\ ch_version c' = ch_version c.
Proof. exact C52_fill_from_env_lem. Qed.
Print Assumptions C52_fill_from_env.
(** Nothing set: nothing changes. *)
Theorem C52_empty_env : forall P h c, fill_from_env P (mkEnv None None None None h) c = c.
Proof. exact C52_empty_env_lem. Qed.
Print Assumptions C52_empty_env.
(** ASCII names are upper-cased letter by letter. *)
Theorem C52_ascii_upper : forall P s, prims_ok P -> Forall (fun c => c < 128) s ->
  to_uppercase P s = map upper_ascii s.
Proof. exact C52_ascii_upper_lem. Qed.
Print Assumptions C52_ascii_upper.
Example C52_ex : forall P,
  get_target_infos (fill_from_env P sample_env (mkChallenge None 1 (repeat 0 8) [AvDnsTreeName str_Domain; AvEOL] None))
  = [AvDnsTreeName str_Domain; AvNbComputerName (to_uppercase P [112; 99]); AvNbDomainName (to_uppercase P [100; 223]);
     AvDnsDomainName str_Domain; AvEOL].
Proof. exact C52_ex_lem. Qed.
