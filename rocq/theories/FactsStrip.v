(** What somebody can change in a challenge on its way to the client. *)
From Coq Require Import ZifyBool ZifyNat ZifyN.
From Verif Require Import Base Nom Unicode Wire Structures Prims Messages Crypto Client Spec SpecBuild SpecCrypto SpecClient SpecServer SamplesLabour SpecLmv2 SamplesLmv2 Lib Encode Decode RoundTrip Parse Inject Samples FactsEncode FactsDecode FactsBuild DesKey RealPrims DesPerm FactsCrypto SamplesClient History Reply FactsClient FactsReply FactsInject FactsServer FactsLmv2 SpecQueries SpecSecrecy SpecTrace Trace FactsTrace FactsSecrecy SamplesStrip.

Ltac Zify.zify_post_hook ::= Z.div_mod_to_equations.

(** ** C130 *)
(** The server sent [w], and the client took the challenge [ch] in its place.  If the 8 bytes of
    the challenge are those of the server and, at levels 0 to 2, so is the flag
    EXTENDED_SESSIONSECURITY, the server logs the user on.  At levels 3 to 5 the flags of the
    reply do not tell what happened to those of the challenge. *)
Lemma C130_logon_lem : forall cfg P e level user dom pw w ch r b db, host_le cfg = true ->
  replies cfg P e level user dom pw ch r b ->
  sub w 24 8 = ch_server_challenge ch -> (level <= 2 -> ESS (u32_at w 20) = ESS (ch_flags ch)) ->
  db (utf16le user) (utf16le dom) = Some (mkAccount user dom pw) ->
  logs_on P db w b = true /\ (3 <= level -> u32_at b 60 = 1082130437).
Proof.
  intros cfg P e level user dom pw w ch r b db HLE H Es Ef A. split.
  - unfold logs_on. destruct (N.le_gt_cases level 2) as [L|L].
    + destruct (C67_accepted_lem _ _ _ _ _ _ _ _ _ _ db w L HLE H) as [_ S].
      destruct (server P db w b); [reflexivity|]. elim S; [|reflexivity].
      exists (mkAccount user dom pw). split; [exact A|]. cbn [acc_password]. unfold v1_plain. now rewrite Es, Ef.
    + destruct (server P db w b); [reflexivity|]. assert (L3 : 3 <= level) by lia.
      apply (C112_accepted_lem _ _ _ _ _ _ _ _ _ _ _ _ L3 HLE H). exists (mkAccount user dom pw).
      split; [exact A|]. cbn [acc_password acc_user acc_domain]. now rewrite Es.
  - intros L. destruct (C57_reply_flags_lem _ _ _ _ _ _ _ _ _ _ H) as [F _]. specialize (F L).
    apply N.bits_inj. intros i. rewrite F. change 1082130437 with (2 ^ 0 + 2 ^ 2 + 2 ^ 23 + 2 ^ 30).
    destruct (N.lt_ge_cases i 31) as [X|X].
    + revert X. clear. intros X. assert (Y : In i (map N.of_nat (seq 0 31))).
      { apply in_map_iff. exists (N.to_nat i). split; [apply N2Nat.id|]. apply in_seq. lia. }
      assert (Z : Forall (fun i => existsb (N.eqb i) [0; 2; 23; 30] = N.testbit (2 ^ 0 + 2 ^ 2 + 2 ^ 23 + 2 ^ 30) i) (map N.of_nat (seq 0 31))) by (vm_compute; repeat constructor).
      rewrite Forall_forall in Z. now apply Z.
    + rewrite N.bits_above_log2 by (change (N.log2 (2 ^ 0 + 2 ^ 2 + 2 ^ 23 + 2 ^ 30)) with 30; lia).
      cbn [existsb]. lia.
Qed.
(** If the flags that lead to a key exchange were taken away, the client sends zeros for a
    session key, and has one that anybody with the hash of the password works out from the
    messages, whatever it drew. *)
Lemma C130_key_lem : forall cfg P e level user dom pw target c h ch r b K, host_le cfg = true ->
  made cfg P e level user dom pw target c -> concludes cfg P c h ch r b K -> key_exchange (ch_flags ch) = false ->
  field_data b 52 = zeros 16
  /\ (3 <= level -> exists t, response_time ch r = Some t /\ K = base_key_of cfg P (NTOWFv2 P pw user dom) ch r t)
  /\ (level <= 2 -> forall lm, lmowfv1 P pw = Val lm -> K = old_base_key P level (NTOWFv1 P pw) lm ch r).
Proof.
  intros cfg P e level user dom pw target c h ch r b K HLE M C X.
  destruct (C36_nt_hashes_lem cfg P pw user dom HLE) as [N1 N2].
  pose proof (concludes_replies _ _ _ _ _ _ _ _ _ _ _ _ _ _ M C) as H.
  split; [exact (proj2 (C30_without_key_exchange_lem _ _ _ _ _ _ _ _ _ _ H X))|]. split.
  - intros L. destruct (replies_workstation _ _ _ _ _ _ _ _ _ _ H) as [ws W].
    destruct (replies_v2 _ _ _ _ _ _ _ _ _ _ _ H L W) as (_ & _ & _ & _ & _ & t & T & _).
    exists t. split; [exact T|]. pose proof (concludes_v2 _ _ _ _ _ _ _ _ _ _ _ _ _ _ _ M L T C) as EK.
    unfold exported in EK. rewrite X, N2 in EK. exact EK.
  - intros L lm HL. pose proof (concludes_v1 _ _ _ _ _ _ _ _ _ _ _ _ _ _ _ M L HL C) as EK.
    unfold exported in EK. rewrite X, N1 in EK. exact EK.
Qed.
(** That a user is logged on does not mean that the challenge arrived as it was sent, at any
    level, nor that the key they drew is the session key. *)
Example C130_ex_lem :
  let w := challenge_bytes cfg_debug sealed_challenge in
  let db u d := if beq_bytes u (utf16le str_User) && beq_bytes d (utf16le str_Domain)
                then Some (mkAccount str_User str_Domain str_Password) else None in
  key_exchange (u32_at w 20) = true /\ key_exchange (ch_flags stripped_challenge) = false
  /\ ESS (u32_at w 20) = true /\ ESS (ch_flags stripped_challenge) = true
  /\ sub w 24 8 = ch_server_challenge stripped_challenge
  /\ db (utf16le str_User) (utf16le str_Domain) = Some (mkAccount str_User str_Domain str_Password)
  /\ forall level, level <= 5 ->
     replies cfg_debug xor_prims host_env level str_User str_Domain str_Password stripped_challenge sample_entropy (toy_reply xor_prims level stripped_challenge)
     /\ made cfg_debug xor_prims host_env level str_User str_Domain str_Password str_target (toy_client xor_prims level)
     /\ concludes cfg_debug xor_prims (toy_client xor_prims level) (sample_history stripped_challenge) stripped_challenge sample_entropy
          (toy_reply xor_prims level stripped_challenge) (toy_key xor_prims level stripped_challenge)
     /\ logs_on xor_prims db w (toy_reply xor_prims level stripped_challenge) = true
     /\ toy_key xor_prims level stripped_challenge <> e_session_key sample_entropy
     /\ toy_key xor_prims level sealed_challenge = e_session_key sample_entropy.
Proof.
  cbv zeta. do 6 (split; [vm_compute; reflexivity|]).
  assert (V : valid_challenge stripped_challenge) by closed_valid.
  intros level Hl; assert (I : In level [0; 1; 2; 3; 4; 5]) by (cbn [In]; lia); clear Hl; destruct I as [<-|[<-|[<-|[<-|[<-|[<-|[]]]]]]]; (split; [apply toy_replies; [exact xor_ok|vm_compute; reflexivity|exact V|vm_compute; reflexivity]|]);
    (split; [split; [exact xor_ok|]; do 4 (split; [closed_valid|]); vm_compute; reflexivity|]);
    (split; [split; [exact V|]; split; [closed_valid|]; split; [|split; [vm_compute; reflexivity|split; vm_compute; reflexivity]]|]);
    try (split; [vm_compute; reflexivity|split; [vm_compute; discriminate|vm_compute; reflexivity]]).
  all: apply sample_accepts.
Qed.
(** A user should be logged on only if the challenge that they answered is the one the server
    sent.  It is not so. *)
Lemma C130_arrives_refuted_lem :
  ~ (forall cfg P e level user dom pw sent ch r b db, host_le cfg = true -> valid_challenge sent ->
     replies cfg P e level user dom pw ch r b ->
     db (utf16le user) (utf16le dom) = Some (mkAccount user dom pw) ->
     logs_on P db (challenge_bytes cfg sent) b = true -> sent = ch).
Proof.
  intros H. destruct C130_ex_lem as (_ & _ & _ & _ & _ & A & X). destruct (X 3 ltac:(lia)) as (R & _ & _ & L & _).
  specialize (H cfg_debug _ _ _ _ _ _ sealed_challenge _ _ _ _ eq_refl sealed_valid R A L). apply (f_equal ch_flags) in H. vm_compute in H. discriminate H.
Qed.
