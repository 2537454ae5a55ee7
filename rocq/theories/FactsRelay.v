(** Challenges passed on from another server. *)
From Coq Require Import ZifyBool ZifyNat ZifyN.
From Verif Require Import Base Nom Unicode Wire Structures Prims Messages Crypto Client Spec SpecBuild SpecCrypto SpecClient SpecServer SamplesLabour SpecLmv2 SamplesLmv2 Lib Encode Decode RoundTrip Parse Inject Samples FactsEncode FactsDecode FactsBuild DesKey RealPrims DesPerm FactsCrypto SamplesClient History Reply FactsClient FactsReply FactsInject FactsServer FactsLmv2 SpecQueries SpecSecrecy SpecTrace Trace FactsTrace FactsSecrecy SamplesStrip FactsStrip SamplesRelay.

Ltac Zify.zify_post_hook ::= Z.div_mod_to_equations.

(** ** C131 *)
(** A client made for any target is given a challenge [w] that any server sent.  That server logs
    the user on with the reply. *)
Lemma C131_relay_lem : forall cfg P e level user dom pw target c h w rest ch r b db, host_le cfg = true ->
  made cfg P e level user dom pw target c -> is_bytes w -> challenge_de cfg w = POk rest ch -> valid_challenge ch ->
  is_entropy r -> accepts h ch -> answer cfg P c h (OpAuthenticate r) = OutBytes b ->
  db (utf16le user) (utf16le dom) = Some (mkAccount user dom pw) -> logs_on P db w b = true.
Proof.
  intros cfg P e level user dom pw target c h w rest ch r b db HLE M Hw D V R A O DB.
  assert (H : replies cfg P e level user dom pw ch r b) by (exists target, c, h; repeat (split; [assumption|]); assumption).
  apply C53_decoded_challenge_lem in D; [|exact Hw]. destruct D as (_ & _ & _ & F & S & _).
  refine (proj1 (C130_logon_lem _ _ _ _ _ _ _ _ _ _ _ _ HLE H (eq_sym S) _ DB)). intros _. now rewrite F.
Qed.
(** At levels 3 to 5 the response repeats what the challenge said about the server: there is no
    name of the target and no channel binding in it but those of the challenge. *)
Lemma C131_bindings_lem : forall cfg P e level user dom pw target c h w rest ch r b, host_le cfg = true -> 3 <= level ->
  made cfg P e level user dom pw target c -> is_bytes w -> challenge_de cfg w = POk rest ch -> valid_challenge ch ->
  is_entropy r -> host_time cfg (e_clock r) -> accepts h ch -> answer cfg P c h (OpAuthenticate r) = OutBytes b ->
  exists a n, authenticate_de cfg b = POk [] a /\ a_nt a = Some (NtV2 n)
    /\ (forall s, In (AvTargetName s) (nt_target_infos n) <-> In (AvTargetName s) (ch_target_infos ch))
    /\ (forall x, In (AvChannelBindings x) (nt_target_infos n) <-> In (AvChannelBindings x) (ch_target_infos ch)).
Proof.
  intros cfg P e level user dom pw target c h w rest ch r b HLE L M Hw D V R T A O.
  assert (H : replies cfg P e level user dom pw ch r b) by (exists target, c, h; repeat (split; [assumption|]); assumption).
  destruct (replies_workstation _ _ _ _ _ _ _ _ _ _ H) as [ws W].
  destruct (C42_reply_decodes_lem _ _ _ _ _ _ _ _ _ _ _ _ _ HLE L W Hw D T H) as (t & a & E & _ & _ & N & _).
  exists a, (mkNtv2 t (e_client_challenge r) (ch_target_infos ch)). split; [exact E|]. split; [exact N|]. split; reflexivity.
Qed.
(** One client, two servers of different names, and the reply to each of them.  The response to
    the first says nothing of the target of the client. *)
Example C131_ex_lem :
  let db u d := if beq_bytes u (utf16le str_User) && beq_bytes d (utf16le str_Domain)
                then Some (mkAccount str_User str_Domain str_Password) else None in
  forall level, level <= 5 ->
  made cfg_debug xor_prims host_env level str_User str_Domain str_Password str_target (toy_client xor_prims level)
  /\ db (utf16le str_User) (utf16le str_Domain) = Some (mkAccount str_User str_Domain str_Password)
  /\ is_entropy sample_entropy /\ host_time cfg_debug (e_clock sample_entropy)
  /\ (forall ch, In ch [sealed_challenge; other_server] ->
      valid_challenge ch /\ is_bytes (challenge_bytes cfg_debug ch) /\ challenge_de cfg_debug (challenge_bytes cfg_debug ch) = POk [] ch
      /\ accepts (sample_history ch) ch
      /\ answer cfg_debug xor_prims (toy_client xor_prims level) (sample_history ch) (OpAuthenticate sample_entropy)
         = OutBytes (toy_reply xor_prims level ch)
      /\ logs_on xor_prims db (challenge_bytes cfg_debug ch) (toy_reply xor_prims level ch) = true)
  /\ ch_target_name sealed_challenge = Some str_Server /\ ch_target_name other_server = Some str_COMPUTER
  /\ (3 <= level -> logs_on xor_prims db (challenge_bytes cfg_debug other_server) (toy_reply xor_prims level sealed_challenge) = false).
Proof.
  cbv zeta. intros level Hl. assert (I : In level [0; 1; 2; 3; 4; 5]) by (cbn [In]; lia). clear Hl.
  assert (V : valid_challenge other_server) by closed_valid.
  destruct I as [<-|[<-|[<-|[<-|[<-|[<-|[]]]]]]];
    (split; [split; [exact xor_ok|]; do 4 (split; [closed_valid|]); vm_compute; reflexivity|]);
    (split; [vm_compute; reflexivity|]); (split; [exact sample_entropy_ok|]); (split; [intros X; discriminate X|]);
    (split; [intros ch [<-|[<-|[]]];
      (split; [exact V||exact sealed_valid|]); (split; [closed_valid|]); (split; [vm_compute; reflexivity|]);
      (split; [apply sample_accepts|]); split; vm_compute; reflexivity|]);
    (split; [reflexivity|]); (split; [reflexivity|]); intros L; try lia; vm_compute; reflexivity.
Qed.
(** A client made for one target should log its user on at one server: false, servers of two
    names both log on the user of one client. *)
Lemma C131_meant_refuted_lem :
  ~ (forall cfg P e level user dom pw target c, host_le cfg = true -> made cfg P e level user dom pw target c ->
     exists s, forall h w rest ch r b db s', is_bytes w -> challenge_de cfg w = POk rest ch -> valid_challenge ch ->
     is_entropy r -> accepts h ch -> answer cfg P c h (OpAuthenticate r) = OutBytes b ->
     db (utf16le user) (utf16le dom) = Some (mkAccount user dom pw) -> logs_on P db w b = true ->
     ch_target_name ch = Some s' -> s' = s).
Proof.
  intros H. destruct (C131_ex_lem 3 ltac:(lia)) as (M & DB & R & _ & X & N1 & N2 & _).
  destruct (H cfg_debug _ _ _ _ _ _ _ _ eq_refl M) as [s G].
  destruct (X sealed_challenge ltac:(now left)) as (V1 & B1 & D1 & A1 & O1 & L1).
  destruct (X other_server ltac:(right; now left)) as (V2 & B2 & D2 & A2 & O2 & L2).
  pose proof (G _ _ _ _ _ _ _ _ B1 D1 V1 R A1 O1 DB L1 N1) as E1.
  pose proof (G _ _ _ _ _ _ _ _ B2 D2 V2 R A2 O2 DB L2 N2) as E2. rewrite <- E1 in E2. discriminate E2.
Qed.
