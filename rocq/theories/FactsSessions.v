(** Session keys of several sessions. *)
From Coq Require Import ZifyBool ZifyNat ZifyN.
From Verif Require Import Base Nom Unicode Wire Structures Prims Messages Crypto Client Spec SpecBuild SpecCrypto SpecClient Lib Encode Decode RoundTrip Parse Samples FactsEncode FactsDecode FactsBuild DesKey RealPrims FactsCrypto SamplesClient History Reply FactsClient FactsReply SpecTrace Trace FactsTrace SamplesLabour SamplesLmv2 SamplesTiming FactsLmv2 FactsTiming SamplesPlaces FactsPlaces SpecQueries SamplesQueries FactsQueries SpecSecrecy SpecKeystream SamplesKeystream FactsKeystream SamplesStrip FactsStrip SamplesSessions.

(** ** C134 *)
(** With key exchange the session key is the one drawn, at every level. *)
Lemma C134_drawn_lem : forall cfg P e level user dom pw target c h ch r b K,
  made cfg P e level user dom pw target c -> concludes cfg P c h ch r b K -> key_exchange (ch_flags ch) = true ->
  K = e_session_key r.
Proof.
  intros cfg P e level user dom pw target c h ch r b K M C X.
  pose proof (concludes_replies _ _ _ _ _ _ _ _ _ _ _ _ _ _ M C) as Q.
  destruct (N.le_gt_cases level 2) as [L|L].
  - pose proof (made_fields _ _ _ _ _ _ _ _ _ M) as (lm & _ & HL & _).
    pose proof (concludes_v1 _ _ _ _ _ _ _ _ _ _ _ _ _ _ _ M L HL C) as G. unfold exported in G. now rewrite X in G.
  - assert (L3 : 3 <= level) by lia. pose proof (made_workstation_exists _ _ _ _ _ _ _ _ _ M) as W.
    destruct (replies_v2 _ _ _ _ _ _ _ _ _ _ _ Q L3 W) as (_ & _ & _ & _ & _ & t & T & _).
    pose proof (concludes_v2 _ _ _ _ _ _ _ _ _ _ _ _ _ _ _ M L3 T C) as G. unfold exported in G. now rewrite X in G.
Qed.
(** Levels 0 to 2, with neither EXTENDED_SESSIONSECURITY nor key exchange: to one server
    challenge all clients with the password have one session key, whatever their names and
    hosts and whatever they draw. *)
Lemma C134_repeated_lem : forall cfg P level pw e1 user1 dom1 target1 c1 h1 ch1 r1 b1 K1 e2 user2 dom2 target2 c2 h2 ch2 r2 b2 K2,
  host_le cfg = true -> level <= 2 ->
  made cfg P e1 level user1 dom1 pw target1 c1 -> concludes cfg P c1 h1 ch1 r1 b1 K1 ->
  made cfg P e2 level user2 dom2 pw target2 c2 -> concludes cfg P c2 h2 ch2 r2 b2 K2 ->
  key_exchange (ch_flags ch1) = false -> key_exchange (ch_flags ch2) = false ->
  ESS (ch_flags ch1) = false -> ESS (ch_flags ch2) = false ->
  ch_server_challenge ch1 = ch_server_challenge ch2 -> K1 = K2.
Proof.
  intros cfg P level pw e1 user1 dom1 target1 c1 h1 ch1 r1 b1 K1 e2 user2 dom2 target2 c2 h2 ch2 r2 b2 K2 HLE L M1 C1 M2 C2 Y1 Y2 X1 X2 S.
  pose proof (made_fields _ _ _ _ _ _ _ _ _ M1) as (lm & _ & HL & _).
  destruct (C130_key_lem _ _ _ _ _ _ _ _ _ _ _ _ _ _ HLE M1 C1 Y1) as (_ & _ & G1).
  destruct (C130_key_lem _ _ _ _ _ _ _ _ _ _ _ _ _ _ HLE M2 C2 Y2) as (_ & _ & G2).
  rewrite (G1 L lm HL), (G2 L lm HL). unfold old_base_key, old_key_message, v1_lm_response, v1_nt_response. now rewrite X1, X2, S.
Qed.
(** With EXTENDED_SESSIONSECURITY, and without key exchange, session keys of a password are the
    same only if both challenges are, or else HMAC-MD5 has a collision under the session base
    key of MS-NLMP, at the two points that were hashed. *)
Lemma C134_old_lem : forall cfg P level pw e1 user1 dom1 target1 c1 h1 ch1 r1 b1 K1 e2 user2 dom2 target2 c2 h2 ch2 r2 b2 K2,
  host_le cfg = true -> level <= 2 ->
  made cfg P e1 level user1 dom1 pw target1 c1 -> concludes cfg P c1 h1 ch1 r1 b1 K1 ->
  made cfg P e2 level user2 dom2 pw target2 c2 -> concludes cfg P c2 h2 ch2 r2 b2 K2 ->
  key_exchange (ch_flags ch1) = false -> key_exchange (ch_flags ch2) = false ->
  ESS (ch_flags ch1) = true -> ESS (ch_flags ch2) = true -> K1 = K2 ->
  (ch_server_challenge ch1 = ch_server_challenge ch2 /\ e_client_challenge r1 = e_client_challenge r2)
  \/ let m1 := ch_server_challenge ch1 ++ e_client_challenge r1 in
     let m2 := ch_server_challenge ch2 ++ e_client_challenge r2 in
     m1 <> m2 /\ p_hmac_md5 P (v1_session_base_key P (NTOWFv1 P pw)) m1 = p_hmac_md5 P (v1_session_base_key P (NTOWFv1 P pw)) m2.
Proof.
  intros cfg P level pw e1 user1 dom1 target1 c1 h1 ch1 r1 b1 K1 e2 user2 dom2 target2 c2 h2 ch2 r2 b2 K2 HLE L M1 C1 M2 C2 Y1 Y2 X1 X2 E.
  pose proof (made_fields _ _ _ _ _ _ _ _ _ M1) as (lm & _ & HL & _).
  destruct (C130_key_lem _ _ _ _ _ _ _ _ _ _ _ _ _ _ HLE M1 C1 Y1) as (_ & _ & G1).
  destruct (C130_key_lem _ _ _ _ _ _ _ _ _ _ _ _ _ _ HLE M2 C2 Y2) as (_ & _ & G2).
  rewrite (G1 L lm HL), (G2 L lm HL) in E. destruct C1 as (Hv1 & Hr1 & _), C2 as (Hv2 & Hr2 & _).
  assert (LM : forall ch r, ESS (ch_flags ch) = true -> is_entropy r ->
    old_key_message P level (NTOWFv1 P pw) lm ch r = ch_server_challenge ch ++ e_client_challenge r).
  { intros ch r X Hr. unfold old_key_message, v1_lm_response. rewrite X. unfold sub. cbn [skipn N.to_nat].
    destruct Hr as [[Lc _] _]. change (N.to_nat 8) with 8%nat. f_equal.
    rewrite firstn_app, Lc, Nat.sub_diag, firstn_O, app_nil_r. apply firstn_all2. lia. }
  unfold old_base_key in E. rewrite !LM in E by assumption.
  destruct (list_eq_dec N.eq_dec (ch_server_challenge ch1 ++ e_client_challenge r1) (ch_server_challenge ch2 ++ e_client_challenge r2)) as [S|S].
  - left. apply app_split in S; [exact S|]. destruct Hv1 as (_ & _ & [-> _] & _), Hv2 as (_ & _ & [-> _] & _). reflexivity.
  - right. cbv zeta. split; [exact S|exact E].
Qed.
(** Levels 3 to 5 without key exchange: the same, with the collision under the NTLMv2 key of the
    account; and the whole responses are the same then, with the time and the target
    information. *)
Lemma C134_new_lem : forall cfg P level pw user dom e1 target1 c1 h1 ch1 r1 b1 K1 t1 e2 target2 c2 h2 ch2 r2 b2 K2 t2,
  host_le cfg = true -> 3 <= level ->
  made cfg P e1 level user dom pw target1 c1 -> concludes cfg P c1 h1 ch1 r1 b1 K1 ->
  made cfg P e2 level user dom pw target2 c2 -> concludes cfg P c2 h2 ch2 r2 b2 K2 ->
  response_time ch1 r1 = Some t1 -> response_time ch2 r2 = Some t2 ->
  key_exchange (ch_flags ch1) = false -> key_exchange (ch_flags ch2) = false -> K1 = K2 ->
  let k2 := NTOWFv2 P pw user dom in
  (ch_server_challenge ch1 = ch_server_challenge ch2 /\ e_client_challenge r1 = e_client_challenge r2 /\ field_data b1 20 = field_data b2 20)
  \/ (let m1 := ch_server_challenge ch1 ++ v2_temp cfg t1 (e_client_challenge r1) (ch_target_infos ch1) in
      let m2 := ch_server_challenge ch2 ++ v2_temp cfg t2 (e_client_challenge r2) (ch_target_infos ch2) in
      m1 <> m2 /\ p_hmac_md5 P k2 m1 = p_hmac_md5 P k2 m2)
  \/ (proof_of cfg P k2 ch1 r1 t1 <> proof_of cfg P k2 ch2 r2 t2
      /\ p_hmac_md5 P k2 (proof_of cfg P k2 ch1 r1 t1) = p_hmac_md5 P k2 (proof_of cfg P k2 ch2 r2 t2)).
Proof.
  intros cfg P level pw user dom e1 target1 c1 h1 ch1 r1 b1 K1 t1 e2 target2 c2 h2 ch2 r2 b2 K2 t2 HLE L M1 C1 M2 C2 T1 T2 Y1 Y2 E k2.
  pose proof (made_workstation_exists _ _ _ _ _ _ _ _ _ M1) as W1. pose proof (made_workstation_exists _ _ _ _ _ _ _ _ _ M2) as W2.
  pose proof (concludes_replies _ _ _ _ _ _ _ _ _ _ _ _ _ _ M1 C1) as Q1. pose proof (concludes_replies _ _ _ _ _ _ _ _ _ _ _ _ _ _ M2 C2) as Q2.
  destruct (replies_v2 _ _ _ _ _ _ _ _ _ _ _ Q1 L W1) as (HP & Hv1 & Hr1 & _ & _ & t & T & TV1 & V1 & F1 & E1). rewrite T1 in T. injection T as <-.
  destruct (replies_v2 _ _ _ _ _ _ _ _ _ _ _ Q2 L W2) as (_ & Hv2 & Hr2 & _ & _ & t & T & TV2 & V2 & F2 & E2). rewrite T2 in T. injection T as <-.
  destruct (v2_by_offset _ _ _ _ _ _ _ _ _ _ V1 F1) as (_ & Z1 & _ & _ & _ & _ & _).
  destruct (v2_by_offset _ _ _ _ _ _ _ _ _ _ V2 F2) as (_ & Z2 & _ & _ & _ & _ & _).
  rewrite <- E1 in Z1. rewrite <- E2 in Z2.
  destruct (C130_key_lem _ _ _ _ _ _ _ _ _ _ _ _ _ _ HLE M1 C1 Y1) as (_ & G1 & _).
  destruct (C130_key_lem _ _ _ _ _ _ _ _ _ _ _ _ _ _ HLE M2 C2 Y2) as (_ & G2 & _).
  destruct (G1 L) as (t & T & G1'). rewrite T1 in T. injection T as <-. destruct (G2 L) as (t & T & G2'). rewrite T2 in T. injection T as <-.
  rewrite G1', G2' in E. clear G1 G2 G1' G2' E1 E2.
  destruct (C36_nt_hashes_lem cfg P pw user dom HLE) as [_ N2]. rewrite N2 in *. fold k2 in E, Z1, Z2.
  change (p_hmac_md5 P k2 (proof_of cfg P k2 ch1 r1 t1) = p_hmac_md5 P k2 (proof_of cfg P k2 ch2 r2 t2)) in E.
  destruct (list_eq_dec N.eq_dec (proof_of cfg P k2 ch1 r1 t1) (proof_of cfg P k2 ch2 r2 t2)) as [S|S]; [|right; right; now split].
  destruct (list_eq_dec N.eq_dec (ch_server_challenge ch1 ++ v2_temp cfg t1 (e_client_challenge r1) (ch_target_infos ch1))
    (ch_server_challenge ch2 ++ v2_temp cfg t2 (e_client_challenge r2) (ch_target_infos ch2))) as [U|U]; [|right; left; split; [exact U|exact S]].
  left. assert (SL : length (ch_server_challenge ch1) = length (ch_server_challenge ch2)).
  { destruct Hv1 as (_ & _ & [-> _] & _), Hv2 as (_ & _ & [-> _] & _). reflexivity. }
  apply app_split in U as [U1 U2]; [|exact SL]. split; [exact U1|]. split.
  - unfold v2_temp in U2. apply app_inv_head, app_inv_head in U2. apply app_split in U2 as [_ U2]; [|reflexivity].
    apply app_split in U2 as [U2 _]; [exact U2|]. destruct Hr1 as [[-> _] _], Hr2 as [[-> _] _]. reflexivity.
  - rewrite <- Z1, <- Z2 in U2. now apply app_inv_tail in U2.
Qed.
(** Two sessions each: at level 1 with one session key; with EXTENDED_SESSIONSECURITY, at level 3
    and with key exchange they have two. *)
Example C134_ex_lem :
  Forall (fun p => let '(level, ch) := p in
    made cfg_debug adding_prims host_env level str_User str_Domain str_Password str_target (adding_client level)
    /\ Forall (fun r => concludes cfg_debug adding_prims (adding_client level) [OpNegociate; OpRecvChallenge ch] ch r (drawn_reply level ch r) (drawn_key level ch r)
         /\ response_time ch r <> None) [sample_entropy; second_entropy])
    [(1, bare_challenge); (1, stripped_challenge); (3, stripped_challenge); (1, plain_challenge)]
  /\ map (fun ch => (key_exchange (ch_flags ch), ESS (ch_flags ch))) [bare_challenge; stripped_challenge; plain_challenge]
     = [(false, false); (false, true); (true, false)]
  /\ e_client_challenge sample_entropy <> e_client_challenge second_entropy
  /\ let same level ch := beq_bytes (drawn_key level ch sample_entropy) (drawn_key level ch second_entropy) in
     (same 1 bare_challenge, same 1 stripped_challenge, same 3 stripped_challenge, same 1 plain_challenge) = (true, false, false, false).
Proof.
  split.
  { assert (S : is_entropy second_entropy) by closed_valid.
    assert (A : forall level ch r, valid_challenge ch -> is_entropy r -> level = 1 \/ level = 3 ->
      session_key (run cfg_debug adding_prims (adding_client level) [OpNegociate; OpRecvChallenge ch; OpAuthenticate r]) = Some (drawn_key level ch r) ->
      answer cfg_debug adding_prims (adding_client level) [OpNegociate; OpRecvChallenge ch] (OpAuthenticate r) = OutBytes (drawn_reply level ch r) ->
      response_time ch r <> None ->
      made cfg_debug adding_prims host_env level str_User str_Domain str_Password str_target (adding_client level)
      /\ concludes cfg_debug adding_prims (adding_client level) [OpNegociate; OpRecvChallenge ch] ch r (drawn_reply level ch r) (drawn_key level ch r)
      /\ response_time ch r <> None).
    { intros level ch r V R L K B T. destruct (drawn_concludes level ch r _ V R L K B) as [X Y]. split; [exact X|]. split; [exact Y|exact T]. }
    repeat (apply Forall_cons; [|]); try apply Forall_nil; cbv beta iota;
      (match goal with |- made _ _ _ ?l _ _ _ _ _ /\ Forall (fun _ => concludes _ _ _ _ ?ch _ _ _ /\ _) _ =>
         destruct (A l ch sample_entropy) as (D1 & D2 & D3);
         [closed_valid|exact sample_entropy_ok|first [now left|now right]|vm_compute; reflexivity|vm_compute; reflexivity|vm_compute; discriminate|];
         destruct (A l ch second_entropy) as (_ & D4 & D5);
         [closed_valid|exact S|first [now left|now right]|vm_compute; reflexivity|vm_compute; reflexivity|vm_compute; discriminate|];
         split; [exact D1|]; apply Forall_cons; [split; [exact D2|exact D3]|apply Forall_cons; [split; [exact D4|exact D5]|apply Forall_nil]] end). }
  split; [reflexivity|]. split; [vm_compute; discriminate|]. vm_compute. reflexivity.
Qed.
(** Sessions in which a client drew different numbers should have different session keys:
    false. *)
Lemma C134_sessions_refuted_lem :
  ~ (forall cfg P e level user dom pw target c h ch r1 b1 K1 r2 b2 K2, host_le cfg = true ->
     made cfg P e level user dom pw target c -> concludes cfg P c h ch r1 b1 K1 -> concludes cfg P c h ch r2 b2 K2 ->
     e_client_challenge r1 <> e_client_challenge r2 -> e_session_key r1 <> e_session_key r2 -> K1 <> K2).
Proof.
  intros H. destruct C134_ex_lem as (F & _ & N & _). apply Forall_inv in F as [M G]. pose proof (Forall_inv G) as [C1 _]. apply Forall_inv_tail, Forall_inv in G as [C2 _].
  refine (H _ _ _ _ _ _ _ _ _ _ _ _ _ _ _ _ _ _ M C1 C2 N _ _); [reflexivity|vm_compute; discriminate|vm_compute; reflexivity].
Qed.
