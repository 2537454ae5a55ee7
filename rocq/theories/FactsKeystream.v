(** Key streams that encrypt more than one session key. *)
From Coq Require Import ZifyBool ZifyNat ZifyN.
From Verif Require Import Base Nom Unicode Wire Structures Prims Messages Crypto Client Spec SpecBuild SpecCrypto SpecClient Lib Encode Decode RoundTrip Parse Samples FactsEncode FactsDecode FactsBuild DesKey RealPrims FactsCrypto SamplesClient History Reply FactsClient FactsReply SpecTrace Trace FactsTrace SamplesLabour SamplesLmv2 SamplesTiming FactsLmv2 FactsTiming SamplesPlaces FactsPlaces SpecQueries SamplesQueries FactsQueries SpecSecrecy SpecKeystream SamplesKeystream.

Ltac Zify.zify_post_hook ::= Z.div_mod_to_equations.

Lemma XOR_RC4K P k a b : prims_ok P -> length a = length b -> XOR (RC4K P k a) (RC4K P k b) = XOR a b.
Proof.
  intros HP E. unfold RC4K. rewrite <- E. pose proof (ok_rc4_len P HP k (length a)) as L. revert b E L.
  generalize (p_rc4_stream P k (length a)). unfold XOR.
  induction a as [|x a IH]; intros s [|y b] E L; try discriminate E; [reflexivity|]. destruct s as [|z s]; [discriminate L|].
  cbn [combine map fst snd]. f_equal; [|apply IH; [now injection E|now injection L]].
  rewrite (N.lxor_comm y z), N.lxor_assoc, <- (N.lxor_assoc z z), N.lxor_nilpotent, N.lxor_0_l. reflexivity.
Qed.

Lemma app_split {A} (a : list A) : forall b x y, length a = length b -> a ++ x = b ++ y -> a = b /\ x = y.
Proof.
  induction a as [|u a IH]; intros [|v b] x y L E; try discriminate L; [now split|]. cbn [app] in E.
  injection E as -> E. destruct (IH b x y) as [-> ->]; [now injection L|exact E|now split].
Qed.

(** ** C122 *)
(** Levels 0 to 2 without EXTENDED_SESSIONSECURITY: to one server challenge, all clients with
    the password encrypt with one key stream; the replies tell which bits the session keys
    differ in. *)
Lemma C122_repeated_refuted_lem : forall cfg P level pw e1 user1 dom1 target1 c1 h1 ch1 r1 b1 K1 e2 user2 dom2 target2 c2 h2 ch2 r2 b2 K2,
  level <= 2 ->
  made cfg P e1 level user1 dom1 pw target1 c1 -> concludes cfg P c1 h1 ch1 r1 b1 K1 ->
  made cfg P e2 level user2 dom2 pw target2 c2 -> concludes cfg P c2 h2 ch2 r2 b2 K2 ->
  ch_server_challenge ch1 = ch_server_challenge ch2 ->
  ESS (ch_flags ch1) = false -> ESS (ch_flags ch2) = false ->
  key_exchange (ch_flags ch1) = true -> key_exchange (ch_flags ch2) = true ->
  XOR (field_data b1 52) (field_data b2 52) = XOR K1 K2.
Proof.
  intros cfg P level pw e1 user1 dom1 target1 c1 h1 ch1 r1 b1 K1 e2 user2 dom2 target2 c2 h2 ch2 r2 b2 K2 L M1 C1 M2 C2 S X1 X2 Y1 Y2.
  pose proof (made_fields _ _ _ _ _ _ _ _ _ M1) as (lm & _ & HL & _).
  pose proof (made_workstation_exists _ _ _ _ _ _ _ _ _ M1) as W1. pose proof (made_workstation_exists _ _ _ _ _ _ _ _ _ M2) as W2.
  pose proof (concludes_replies _ _ _ _ _ _ _ _ _ _ _ _ _ _ M1 C1) as Q1. pose proof (concludes_replies _ _ _ _ _ _ _ _ _ _ _ _ _ _ M2 C2) as Q2.
  destruct (replies_v1 _ _ _ _ _ _ _ _ _ _ _ _ Q1 L W1 HL) as (HP & Hv1 & Hr1 & V1 & F1 & E1).
  destruct (replies_v1 _ _ _ _ _ _ _ _ _ _ _ _ Q2 L W2 HL) as (_ & Hv2 & Hr2 & V2 & F2 & E2).
  destruct (v1_by_offset _ _ _ _ _ _ _ _ _ _ V1 F1) as (_ & _ & _ & _ & _ & O1 & _).
  destruct (v1_by_offset _ _ _ _ _ _ _ _ _ _ V2 F2) as (_ & _ & _ & _ & _ & O2 & _).
  rewrite <- E1 in O1. rewrite <- E2 in O2.
  pose proof (concludes_v1 _ _ _ _ _ _ _ _ _ _ _ _ _ _ _ M1 L HL C1) as G1. pose proof (concludes_v1 _ _ _ _ _ _ _ _ _ _ _ _ _ _ _ M2 L HL C2) as G2.
  unfold exported in G1, G2. rewrite Y1 in G1. rewrite Y2 in G2. subst K1 K2.
  unfold encrypted in O1, O2. rewrite Y1 in O1. rewrite Y2 in O2. rewrite O1, O2.
  assert (E : v1_lm P level (ntowfv1 cfg P pw) lm ch1 r1 = v1_lm P level (ntowfv1 cfg P pw) lm ch2 r2).
  { unfold v1_lm, v1_lm_response, v1_nt_response. rewrite X1, X2, S. reflexivity. }
  rewrite E, S. apply XOR_RC4K; [exact HP|]. destruct Hr1 as [_ [-> _]], Hr2 as [_ [-> _]]. reflexivity.
Qed.
(** With EXTENDED_SESSIONSECURITY, the keys that encrypt are the same only if both challenges
    are, or else HMAC-MD5 has a collision under the account's session base key. *)
Lemma C122_fresh_old_lem : forall cfg P level pw e1 user1 dom1 target1 c1 h1 ch1 r1 b1 K1 e2 user2 dom2 target2 c2 h2 ch2 r2 b2 K2,
  host_le cfg = true -> level <= 2 ->
  made cfg P e1 level user1 dom1 pw target1 c1 -> concludes cfg P c1 h1 ch1 r1 b1 K1 ->
  made cfg P e2 level user2 dom2 pw target2 c2 -> concludes cfg P c2 h2 ch2 r2 b2 K2 ->
  ESS (ch_flags ch1) = true -> ESS (ch_flags ch2) = true ->
  key_exchange (ch_flags ch1) = true -> key_exchange (ch_flags ch2) = true ->
  exists x1 x2, field_data b1 52 = RC4K P x1 K1 /\ field_data b2 52 = RC4K P x2 K2
    /\ (x1 = x2 ->
         (ch_server_challenge ch1 = ch_server_challenge ch2 /\ e_client_challenge r1 = e_client_challenge r2)
         \/ let m1 := ch_server_challenge ch1 ++ e_client_challenge r1 in
            let m2 := ch_server_challenge ch2 ++ e_client_challenge r2 in
            m1 <> m2 /\ p_hmac_md5 P (v1_session_base_key P (NTOWFv1 P pw)) m1 = p_hmac_md5 P (v1_session_base_key P (NTOWFv1 P pw)) m2).
Proof.
  intros cfg P level pw e1 user1 dom1 target1 c1 h1 ch1 r1 b1 K1 e2 user2 dom2 target2 c2 h2 ch2 r2 b2 K2 HLE L M1 C1 M2 C2 X1 X2 Y1 Y2.
  pose proof (made_fields _ _ _ _ _ _ _ _ _ M1) as (lm & _ & HL & _).
  pose proof (made_workstation_exists _ _ _ _ _ _ _ _ _ M1) as W1. pose proof (made_workstation_exists _ _ _ _ _ _ _ _ _ M2) as W2.
  pose proof (concludes_replies _ _ _ _ _ _ _ _ _ _ _ _ _ _ M1 C1) as Q1. pose proof (concludes_replies _ _ _ _ _ _ _ _ _ _ _ _ _ _ M2 C2) as Q2.
  destruct (replies_v1 _ _ _ _ _ _ _ _ _ _ _ _ Q1 L W1 HL) as (HP & Hv1 & Hr1 & V1 & F1 & E1).
  destruct (replies_v1 _ _ _ _ _ _ _ _ _ _ _ _ Q2 L W2 HL) as (_ & Hv2 & Hr2 & V2 & F2 & E2).
  destruct (v1_by_offset _ _ _ _ _ _ _ _ _ _ V1 F1) as (_ & _ & _ & _ & _ & O1 & _).
  destruct (v1_by_offset _ _ _ _ _ _ _ _ _ _ V2 F2) as (_ & _ & _ & _ & _ & O2 & _).
  rewrite <- E1 in O1. rewrite <- E2 in O2.
  pose proof (concludes_v1 _ _ _ _ _ _ _ _ _ _ _ _ _ _ _ M1 L HL C1) as G1. pose proof (concludes_v1 _ _ _ _ _ _ _ _ _ _ _ _ _ _ _ M2 L HL C2) as G2.
  unfold exported in G1, G2. rewrite Y1 in G1. rewrite Y2 in G2. subst K1 K2.
  unfold encrypted in O1, O2. rewrite Y1 in O1. rewrite Y2 in O2.
  destruct (C36_nt_hashes_lem cfg P pw user1 dom1 HLE) as [N1 _]. rewrite N1 in *.
  assert (LM : forall ch r, ESS (ch_flags ch) = true -> is_entropy r -> sub (v1_lm P level (NTOWFv1 P pw) lm ch r) 0 8 = e_client_challenge r).
  { intros ch r X Hr. unfold v1_lm, v1_lm_response. rewrite X. unfold sub. cbn [skipn N.to_nat].
    destruct Hr as [[Lc _] _]. change (N.to_nat 8) with 8%nat.
    rewrite firstn_app, Lc, Nat.sub_diag, firstn_O, app_nil_r. apply firstn_all2. lia. }
  unfold v1_kek in O1, O2. rewrite LM in O1, O2 by assumption.
  do 2 eexists. split; [exact O1|]. split; [exact O2|]. intros E.
  destruct (list_eq_dec N.eq_dec (ch_server_challenge ch1 ++ e_client_challenge r1) (ch_server_challenge ch2 ++ e_client_challenge r2)) as [S|S].
  - left. apply app_split in S; [exact S|]. destruct Hv1 as (_ & _ & [-> _] & _), Hv2 as (_ & _ & [-> _] & _). reflexivity.
  - right. cbv zeta. split; [exact S|exact E].
Qed.
(** Levels 3 to 5: the same, with the collision under the account's NTLMv2 key, and the time
    and the target information are the same then, too. *)
Lemma C122_fresh_lem : forall cfg P level pw user dom e1 target1 c1 h1 ch1 r1 b1 K1 t1 e2 target2 c2 h2 ch2 r2 b2 K2 t2,
  host_le cfg = true -> 3 <= level ->
  made cfg P e1 level user dom pw target1 c1 -> concludes cfg P c1 h1 ch1 r1 b1 K1 ->
  made cfg P e2 level user dom pw target2 c2 -> concludes cfg P c2 h2 ch2 r2 b2 K2 ->
  response_time ch1 r1 = Some t1 -> response_time ch2 r2 = Some t2 ->
  key_exchange (ch_flags ch1) = true -> key_exchange (ch_flags ch2) = true ->
  let k2 := NTOWFv2 P pw user dom in
  exists x1 x2, field_data b1 52 = RC4K P x1 K1 /\ field_data b2 52 = RC4K P x2 K2
    /\ (x1 = x2 ->
         (ch_server_challenge ch1 = ch_server_challenge ch2 /\ e_client_challenge r1 = e_client_challenge r2 /\ field_data b1 20 = field_data b2 20)
         \/ (let m1 := ch_server_challenge ch1 ++ v2_temp cfg t1 (e_client_challenge r1) (ch_target_infos ch1) in
             let m2 := ch_server_challenge ch2 ++ v2_temp cfg t2 (e_client_challenge r2) (ch_target_infos ch2) in
             m1 <> m2 /\ p_hmac_md5 P k2 m1 = p_hmac_md5 P k2 m2)
         \/ (proof_of cfg P k2 ch1 r1 t1 <> proof_of cfg P k2 ch2 r2 t2
             /\ p_hmac_md5 P k2 (proof_of cfg P k2 ch1 r1 t1) = p_hmac_md5 P k2 (proof_of cfg P k2 ch2 r2 t2))).
Proof.
  intros cfg P level pw user dom e1 target1 c1 h1 ch1 r1 b1 K1 t1 e2 target2 c2 h2 ch2 r2 b2 K2 t2 HLE L M1 C1 M2 C2 T1 T2 Y1 Y2 k2.
  pose proof (made_workstation_exists _ _ _ _ _ _ _ _ _ M1) as W1. pose proof (made_workstation_exists _ _ _ _ _ _ _ _ _ M2) as W2.
  pose proof (concludes_replies _ _ _ _ _ _ _ _ _ _ _ _ _ _ M1 C1) as Q1. pose proof (concludes_replies _ _ _ _ _ _ _ _ _ _ _ _ _ _ M2 C2) as Q2.
  destruct (replies_v2 _ _ _ _ _ _ _ _ _ _ _ Q1 L W1) as (HP & Hv1 & Hr1 & _ & _ & t & T & TV1 & V1 & F1 & E1). rewrite T1 in T. injection T as <-.
  destruct (replies_v2 _ _ _ _ _ _ _ _ _ _ _ Q2 L W2) as (_ & Hv2 & Hr2 & _ & _ & t & T & TV2 & V2 & F2 & E2). rewrite T2 in T. injection T as <-.
  destruct (v2_by_offset _ _ _ _ _ _ _ _ _ _ V1 F1) as (_ & Z1 & _ & _ & _ & O1 & _).
  destruct (v2_by_offset _ _ _ _ _ _ _ _ _ _ V2 F2) as (_ & Z2 & _ & _ & _ & O2 & _).
  rewrite <- E1 in O1, Z1. rewrite <- E2 in O2, Z2.
  pose proof (concludes_v2 _ _ _ _ _ _ _ _ _ _ _ _ _ _ _ M1 L T1 C1) as G1. pose proof (concludes_v2 _ _ _ _ _ _ _ _ _ _ _ _ _ _ _ M2 L T2 C2) as G2.
  unfold exported in G1, G2. rewrite Y1 in G1. rewrite Y2 in G2. subst K1 K2.
  unfold encrypted in O1, O2. rewrite Y1 in O1. rewrite Y2 in O2.
  destruct (C36_nt_hashes_lem cfg P pw user dom HLE) as [_ N2]. rewrite N2 in *. fold k2 in O1, O2.
  do 2 eexists. split; [exact O1|]. split; [exact O2|]. intros E.
  change (p_hmac_md5 P k2 (proof_of cfg P k2 ch1 r1 t1) = p_hmac_md5 P k2 (proof_of cfg P k2 ch2 r2 t2)) in E.
  destruct (list_eq_dec N.eq_dec (proof_of cfg P k2 ch1 r1 t1) (proof_of cfg P k2 ch2 r2 t2)) as [S|S]; [|right; right; now split].
  destruct (list_eq_dec N.eq_dec (ch_server_challenge ch1 ++ v2_temp cfg t1 (e_client_challenge r1) (ch_target_infos ch1))
    (ch_server_challenge ch2 ++ v2_temp cfg t2 (e_client_challenge r2) (ch_target_infos ch2))) as [U|U]; [|right; left; split; [exact U|exact S]].
  left. assert (SL : length (ch_server_challenge ch1) = length (ch_server_challenge ch2)).
  { destruct Hv1 as (_ & _ & [-> _] & _), Hv2 as (_ & _ & [-> _] & _). reflexivity. }
  apply app_split in U as [U1 U2]; [|exact SL]. split; [exact U1|]. split.
  - unfold v2_temp in U2. apply app_inv_head, app_inv_head in U2. apply app_split in U2 as [_ U2]; [|reflexivity].
    apply app_split in U2 as [U2 _]; [exact U2|]. destruct Hr1 as [[-> _] _], Hr2 as [[-> _] _]. reflexivity.
  - rewrite <- Z1, <- Z2 in U2. now apply app_inv_tail in U2.
Qed.

Lemma adding_ok : prims_ok adding_prims.
Proof.
  constructor; intros; try solve [apply fit_length|apply fit_bytes].
  - now apply (ok_upper_ascii _ mixing_ok).
  - now apply (ok_upper_string _ mixing_ok).
Qed.
Lemma drawn_concludes level ch r K : valid_challenge ch -> is_entropy r -> level = 1 \/ level = 3 ->
  session_key (run cfg_debug adding_prims (adding_client level) [OpNegociate; OpRecvChallenge ch; OpAuthenticate r]) = Some K ->
  answer cfg_debug adding_prims (adding_client level) [OpNegociate; OpRecvChallenge ch] (OpAuthenticate r) = OutBytes (drawn_reply level ch r) ->
  made cfg_debug adding_prims host_env level str_User str_Domain str_Password str_target (adding_client level)
  /\ concludes cfg_debug adding_prims (adding_client level) [OpNegociate; OpRecvChallenge ch] ch r (drawn_reply level ch r) K.
Proof.
  intros Hc Hr L HK HB. split.
  { split; [exact adding_ok|]. repeat (split; [closed_valid|]). destruct L as [ -> | -> ]; vm_compute; reflexivity. }
  split; [exact Hc|]. split; [exact Hr|]. split. { exists [], [], []. repeat constructor. }
  split. { destruct L as [ -> | -> ]; reflexivity. }
  split; [exact HB|exact HK].
Qed.
(** At level 1 two replies to one server challenge, sent with one key stream; with
    EXTENDED_SESSIONSECURITY and at level 3 the key streams differ. *)
Example C122_ex_lem :
  Forall (fun p => let '(level, ch, r) := p in
    made cfg_debug adding_prims host_env level str_User str_Domain str_Password str_target (adding_client level)
    /\ concludes cfg_debug adding_prims (adding_client level) [OpNegociate; OpRecvChallenge ch] ch r (drawn_reply level ch r) (e_session_key r)
    /\ key_exchange (ch_flags ch) = true /\ response_time ch r <> None)
    [(1, plain_challenge, sample_entropy); (1, signed_challenge, second_entropy); (1, sealed_challenge, sample_entropy);
     (1, sealed_challenge, second_entropy); (3, sealed_challenge, sample_entropy); (3, sealed_challenge, second_entropy)]
  /\ (ESS (ch_flags plain_challenge), ESS (ch_flags signed_challenge), ESS (ch_flags sealed_challenge)) = (false, false, true)
  /\ let stream level ch r := XOR (field_data (drawn_reply level ch r) 52) (e_session_key r) in
     e_session_key sample_entropy <> e_session_key second_entropy
  /\ stream 1 plain_challenge sample_entropy = stream 1 signed_challenge second_entropy
  /\ stream 1 sealed_challenge sample_entropy <> stream 1 sealed_challenge second_entropy
  /\ stream 3 sealed_challenge sample_entropy <> stream 3 sealed_challenge second_entropy.
Proof.
  split.
  { assert (S : is_entropy second_entropy) by closed_valid.
    repeat (apply Forall_cons; [|]); try apply Forall_nil; cbv beta iota;
      (match goal with |- made _ _ _ ?l _ _ _ _ _ /\ concludes _ _ _ _ ?ch ?r _ _ /\ _ =>
         destruct (drawn_concludes l ch r (e_session_key r)) as [D1 D2];
         [first [exact sealed_valid|closed_valid]|first [exact sample_entropy_ok|exact S]|first [now left|now right]|vm_compute; reflexivity|vm_compute; reflexivity|];
         split; [exact D1|]; split; [exact D2|]; split; [reflexivity|vm_compute; discriminate] end). }
  split; [reflexivity|]. cbv zeta. split; [vm_compute; discriminate|]. split; [vm_compute; reflexivity|].
  split; vm_compute; discriminate.
Qed.
