(** Facts about the client against a server. *)
From Coq Require Import ZifyBool ZifyNat ZifyN.
From Verif Require Import Base Nom Unicode Wire Structures Prims Messages Crypto Client Spec SpecBuild SpecCrypto SpecClient SpecServer Lib Encode Decode RoundTrip Parse Inject Samples FactsEncode FactsDecode FactsBuild DesKey RealPrims DesPerm FactsCrypto SamplesClient History Reply FactsClient FactsReply FactsInject.

Ltac Zify.zify_post_hook ::= Z.div_mod_to_equations.

(** ** C67 *)
Lemma message_head cfg a : beq_bytes (sub (authenticate_bytes cfg a) 0 8) NTLMSSP && (u32_at (authenticate_bytes cfg a) 8 =? 3) = true.
Proof. unfold authenticate_bytes. cbv zeta. reflexivity. Qed.
Lemma sub_app_l a b n : len a = n -> sub (a ++ b) 0 n = a.
Proof.
  intros H. unfold sub, len in *. change (N.to_nat 0) with 0%nat. rewrite skipn_O.
  replace (N.to_nat n) with (length a) by lia. rewrite firstn_app, Nat.sub_diag, firstn_O, app_nil_r. apply firstn_all.
Qed.
Lemma v1_plain_same P f sc cc cc' : (ESS f = true -> cc = cc') -> v1_plain P f sc cc = v1_plain P f sc cc'.
Proof. intros H. unfold v1_plain. destruct (ESS f); [now rewrite H|reflexivity]. Qed.
Lemma v1_nt_plain P f k sc cc : v1_nt_response P f k sc cc = DESL P k (v1_plain P f sc cc).
Proof. unfold v1_nt_response, v1_plain. now destruct (ESS f). Qed.

(** What the server sees in a reply of levels 0 to 2. *)
Lemma v1_seen cfg P e level user dom pw ch r b : level <= 2 -> host_le cfg = true ->
  replies cfg P e level user dom pw ch r b ->
  beq_bytes (sub b 0 8) NTLMSSP && (u32_at b 8 =? 3) = true
  /\ field_data b 36 = utf16le user /\ field_data b 28 = utf16le dom
  /\ field_data b 20 = DESL P (NTOWFv1 P pw) (v1_plain P (ch_flags ch) (ch_server_challenge ch) (sub (field_data b 12) 0 8))
  /\ (len (field_data b 20) =? 24) = true
  /\ is_buffer 8 (ch_server_challenge ch).
Proof.
  intros L HLE H. destruct (replies_workstation _ _ _ _ _ _ _ _ _ _ H) as [ws W]. destruct (replies_lm _ _ _ _ _ _ _ _ _ _ H) as [klm K].
  destruct (replies_v1 _ _ _ _ _ _ _ _ _ _ _ _ H L W K) as (HP & Hv & Hr & V & F & Eb).
  destruct (C32_ntlmv1_response_lem _ _ _ _ _ _ _ _ _ _ _ _ HLE L W K H) as (H1 & H2 & H3 & H4 & H5).
  assert (SC : is_buffer 8 (ch_server_challenge ch)) by apply Hv.
  split; [rewrite Eb; apply message_head|]. split; [exact H4|]. split; [exact H3|].
  split; [|split; [|exact SC]].
  - rewrite H2, v1_nt_plain. f_equal. apply v1_plain_same. intros S. rewrite H1. unfold v1_lm_response. rewrite S.
    symmetry. apply sub_app_l. assert (is_buffer 8 (e_client_challenge r)) as [E _] by apply Hr. unfold len. now rewrite E.
  - rewrite H2. assert (is_buffer 24 (v1_nt_response P (ch_flags ch) (NTOWFv1 P pw) (ch_server_challenge ch) (e_client_challenge r))) as [E _].
    { apply v1_nt_buffer; [exact HP| |exact SC]. split; [apply (ok_md4_len P HP)|apply (ok_md4_bytes P HP)]. }
    unfold len. now rewrite E.
Qed.
(** Which servers accept a reply of levels 0 to 2, whatever challenge they
    sent and whatever accounts they have. *)
Lemma C67_accepted_lem : forall cfg P e level user dom pw ch r b db w, level <= 2 -> host_le cfg = true ->
  replies cfg P e level user dom pw ch r b ->
  let cc := sub (field_data b 12) 0 8 in
  (server P db w b <> None <-> exists a, db (utf16le user) (utf16le dom) = Some a
     /\ DESL P (NTOWFv1 P (acc_password a)) (v1_plain P (u32_at w 20) (sub w 24 8) cc)
        = DESL P (NTOWFv1 P pw) (v1_plain P (ch_flags ch) (ch_server_challenge ch) cc)).
Proof.
  intros cfg P e level user dom pw ch r b db w L HLE H cc.
  destruct (v1_seen _ _ _ _ _ _ _ _ _ _ L HLE H) as (H1 & H2 & H3 & H4 & H5 & _).
  unfold server. rewrite H1, H2, H3, H5. destruct (db (utf16le user) (utf16le dom)) as [a|].
  2:{ split; [intros N; now elim N|]. intros (a & N & _). discriminate N. }
  unfold server_v1. rewrite v1_nt_plain. fold cc in H4 |- *. rewrite H4.
  clear H1. destruct (beq_bytes _ _) eqn:E.
  - apply beq_bytes_eq in E. split; [intros _; exists a; auto|intros _ N; discriminate N].
  - split; [intros N; now elim N|]. intros (a' & A & B). injection A as <-. rewrite B, beq_bytes_refl in E. discriminate E.
Qed.
(** The server that sent [w] and knows the account accepts the reply to [w];
    with EXTENDED_SESSIONSECURITY it has the session key of the client. *)
Lemma C67_logon_lem : forall cfg P e level user dom pw target c h w rest ch r b K db, level <= 2 -> host_le cfg = true ->
  is_bytes w -> challenge_de cfg w = POk rest ch ->
  made cfg P e level user dom pw target c -> concludes cfg P c h ch r b K ->
  db (utf16le user) (utf16le dom) = Some (mkAccount user dom pw) ->
  exists K', server P db w b = Some K' /\ (N.testbit (u32_at w 20) 19 = true -> K' = K).
Proof.
  intros cfg P e level user dom pw target c h w rest ch r b K db L HLE Hw D M C A.
  pose proof (concludes_replies _ _ _ _ _ _ _ _ _ _ _ _ _ _ M C) as H.
  apply C53_decoded_challenge_lem in D as [_ D]; [|exact Hw]. destruct D as (_ & _ & Ef & Es & _).
  destruct (replies_lm _ _ _ _ _ _ _ _ _ _ H) as [klm Hk].
  destruct (v1_seen _ _ _ _ _ _ _ _ _ _ L HLE H) as (H1 & H2 & H3 & H4 & H5 & _).
  unfold server. rewrite H1, H2, H3, H5, A, <- Ef, <- Es. unfold server_v1. cbn [acc_password].
  rewrite v1_nt_plain, H4, beq_bytes_refl. eexists. split; [reflexivity|]. intros S. unfold server_key.
  destruct (key_exchange (ch_flags ch)) eqn:X.
  - destruct (C30_session_key_ntlmv1_lem _ _ _ _ _ _ _ _ _ _ _ _ _ _ _ M L HLE Hk C X) as (_ & _ & _ & Y).
    rewrite <- (Y S). unfold KXKEY, ESS. now rewrite S.
  - destruct (C31_key_exchange_key_lem _ _ _ _ _ _ _ _ _ _ _ _ _ _ _ M L HLE Hk C X) as [_ Y].
    rewrite (Y S). unfold KXKEY, ESS. now rewrite S.
Qed.
(** Without that flag the two sides need not have the same key. *)
Lemma C67_same_key_refuted_lem :
  ~ (forall cfg P e level user dom pw target c h w rest ch r b K db, level <= 2 -> host_le cfg = true ->
      is_bytes w -> challenge_de cfg w = POk rest ch ->
      made cfg P e level user dom pw target c -> concludes cfg P c h ch r b K ->
      db (utf16le user) (utf16le dom) = Some (mkAccount user dom pw) ->
      server P db w b = Some K).
Proof.
  intros H.
  assert (S : exists K, session_key (run cfg_debug real_prims (sample_client 0)
              (sample_history old_challenge ++ [OpAuthenticate sample_entropy])) = Some K)
    by (eexists; vm_compute; reflexivity).
  destruct S as [K S].
  assert (C : concludes cfg_debug real_prims (sample_client 0) (sample_history old_challenge) old_challenge sample_entropy
    (sample_reply 0 old_challenge) K).
  { apply sample_concludes; [exact old_valid|vm_compute; reflexivity|vm_compute; reflexivity|exact S]. }
  specialize (H cfg_debug real_prims host_env 0 str_User str_Domain str_Password str_target _ _ (challenge_bytes cfg_debug old_challenge) [] old_challenge _ _ _
    (fun _ _ => Some (mkAccount str_User str_Domain str_Password)) ltac:(lia) eq_refl ltac:(closed_valid) ltac:(vm_compute; reflexivity) (sample_made 0) C eq_refl).
  vm_compute in S. apply some_inj in S. rewrite S in H. revert H. vm_compute. discriminate.
Qed.
(** Levels 3 to 5: no server accepts the reply unless an HMAC happens to begin
    with the bytes 1, 1, 0, 0, 0, 0, 0, 0 and the time. *)
Lemma C67_new_levels_lem : forall cfg P e level user dom pw ch r b db w K', 3 <= level -> host_le cfg = true ->
  replies cfg P e level user dom pw ch r b -> server P db w b = Some K' ->
  exists a t, db (utf16le user) (utf16le dom) = Some a /\ response_time ch r = Some t
    /\ p_hmac_md5 P (NTOWFv2 P (acc_password a) (acc_user a) (acc_domain a))
         (sub w 24 8 ++ e_client_challenge r ++ zeros 4 ++ av_list_bytes cfg (ch_target_infos ch))
       = [1; 1] ++ zeros 6 ++ filetime_bytes t.
Proof.
  intros cfg P e level user dom pw ch r b db w K' L HLE H S.
  destruct (replies_workstation _ _ _ _ _ _ _ _ _ _ H) as [ws W].
  destruct (C27_ntlmv2_response_lem _ _ _ _ _ _ _ _ _ _ _ HLE L W H) as (t & T & H1 & H2 & H3 & H4 & _).
  unfold server in S. destruct (_ && _); [|discriminate S]. rewrite H4, H3 in S.
  destruct (db (utf16le user) (utf16le dom)) as [a|]; [|discriminate S].
  assert (LT : length (filetime_bytes t) = 8%nat) by reflexivity.
  assert (LC : length (e_client_challenge r) = 8%nat).
  { destruct (replies_v2 _ _ _ _ _ _ _ _ _ _ _ H L W) as (_ & _ & Hr & _). apply Hr. }
  assert (Ln : len (field_data b 20) = 28 + len (av_list_bytes cfg (ch_target_infos ch))).
  { rewrite H2. unfold len, zeros. rewrite !app_length, LT, LC, !repeat_length. cbn [length]. lia. }
  destruct (len (field_data b 20) =? 24) eqn:E; [lia|]. unfold server_v2 in S.
  assert (F : firstn 16 (field_data b 20) = [1; 1] ++ zeros 6 ++ filetime_bytes t) by (rewrite H2; reflexivity).
  assert (G : skipn 16 (field_data b 20) = e_client_challenge r ++ zeros 4 ++ av_list_bytes cfg (ch_target_infos ch)) by (rewrite H2; reflexivity).
  rewrite F, G in S. destruct (beq_bytes _ _) eqn:Q; [|discriminate S]. apply beq_bytes_eq in Q.
  exists a, t. split; [reflexivity|]. split; [exact T|]. symmetry. exact Q.
Qed.
Lemma C67_logon_refuted_lem :
  ~ (forall cfg P e level user dom pw target c h w rest ch r b K db, 3 <= level <= 5 -> host_le cfg = true ->
      is_bytes w -> challenge_de cfg w = POk rest ch ->
      made cfg P e level user dom pw target c -> concludes cfg P c h ch r b K ->
      db (utf16le user) (utf16le dom) = Some (mkAccount user dom pw) ->
      exists K', server P db w b = Some K').
Proof.
  intros H.
  assert (C : concludes cfg_debug real_prims (sample_client 3) (sample_history sealed_challenge) sealed_challenge sample_entropy
    (sample_reply 3 sealed_challenge) (repeat 85 16)).
  { apply sample_concludes; [exact sealed_valid|vm_compute; reflexivity|vm_compute; reflexivity|vm_compute; reflexivity]. }
  specialize (H cfg_debug real_prims host_env 3 str_User str_Domain str_Password str_target _ _ (challenge_bytes cfg_debug sealed_challenge) [] sealed_challenge _ _ _
    (fun _ _ => Some (mkAccount str_User str_Domain str_Password)) ltac:(lia) eq_refl ltac:(closed_valid) ltac:(vm_compute; reflexivity) (sample_made 3) C eq_refl).
  destruct H as [K' H]. vm_compute in H. discriminate H.
Qed.
Example C67_ex_lem :
  let w := challenge_bytes cfg_debug sealed_challenge in
  let db u d := if beq_bytes u (utf16le str_User) && beq_bytes d (utf16le str_Domain)
                then Some (mkAccount str_User str_Domain str_Password) else None in
  is_bytes w /\ challenge_de cfg_debug w = POk [] sealed_challenge
  /\ made cfg_debug real_prims host_env 2 str_User str_Domain str_Password str_target (sample_client 2)
  /\ concludes cfg_debug real_prims (sample_client 2) (sample_history sealed_challenge) sealed_challenge sample_entropy
       (sample_reply 2 sealed_challenge) (repeat 85 16)
  /\ N.testbit (u32_at w 20) 19 = true
  /\ server real_prims db w (sample_reply 2 sealed_challenge) = Some (repeat 85 16)
  /\ server real_prims (fun _ _ => Some (mkAccount str_User str_Domain str_Server)) w (sample_reply 2 sealed_challenge) = None
  /\ replies cfg_debug real_prims host_env 3 str_User str_Domain str_Password sealed_challenge sample_entropy
       (sample_reply 3 sealed_challenge).
Proof.
  intros w db. split; [closed_valid|]. split; [vm_compute; reflexivity|]. split; [apply sample_made|].
  split; [apply sample_concludes; [exact sealed_valid|vm_compute; reflexivity|vm_compute; reflexivity|vm_compute; reflexivity]|].
  split; [vm_compute; reflexivity|]. split; [vm_compute; reflexivity|]. split; [vm_compute; reflexivity|].
  apply sample_replies; [exact sealed_valid|vm_compute; reflexivity].
Qed.

(** ** C68 *)
Lemma DESL_inj P k a b : des_permutes P -> is_buffer 16 k -> prims_ok P -> is_buffer 8 a -> is_buffer 8 b -> DESL P k a = DESL P k b -> a = b.
Proof.
  intros HD [Lk Bk] HP Ha Hb E. unfold DESL in E.
  assert (B7 : is_buffer 7 (sub k 0 7)) by (apply sub_is_buffer; [exact Bk|unfold len; lia|reflexivity]).
  apply app_inj in E as [E _].
  - unfold DES in E. apply HD in E; try assumption. now apply expand_props.
  - now rewrite (proj1 (DES_buffer P _ a HP B7 (proj1 Ha))), (proj1 (DES_buffer P _ b HP B7 (proj1 Hb))).
Qed.
Lemma v1_plain_buffer P f sc cc : prims_ok P -> is_buffer 8 sc -> is_buffer 8 (v1_plain P f sc cc).
Proof.
  intros HP H. unfold v1_plain. destruct (ESS f); [|exact H].
  apply sub_is_buffer; [apply (ok_md5_bytes P HP)|unfold len; now rewrite (ok_md5_len P HP)|reflexivity].
Qed.
(** A reply of levels 0 to 2 is accepted by a server with the same account for
    one value of what the response encrypts. *)
Lemma C68_one_challenge_lem : forall cfg P e level user dom pw ch r b db w K' a, level <= 2 -> host_le cfg = true ->
  des_permutes P -> is_buffer 8 (sub w 24 8) ->
  replies cfg P e level user dom pw ch r b ->
  db (utf16le user) (utf16le dom) = Some a -> acc_password a = pw ->
  server P db w b = Some K' ->
  let cc := sub (field_data b 12) 0 8 in
  v1_plain P (u32_at w 20) (sub w 24 8) cc = v1_plain P (ch_flags ch) (ch_server_challenge ch) cc.
Proof.
  intros cfg P e level user dom pw ch r b db w K' a L HLE HD Hw H A Pw S cc.
  destruct (C67_accepted_lem _ _ _ _ _ _ _ _ _ _ db w L HLE H) as [X _].
  destruct (X ltac:(congruence)) as (a' & A' & E). rewrite A in A'. injection A' as <-. rewrite Pw in E.
  destruct (v1_seen _ _ _ _ _ _ _ _ _ _ L HLE H) as (_ & _ & _ & _ & _ & SC).
  assert (HP : prims_ok P) by (destruct H as (? & ? & ? & M & _); apply M).
  apply (DESL_inj P (NTOWFv1 P pw)); try assumption.
  - split; [apply (ok_md4_len P HP)|apply (ok_md4_bytes P HP)].
  - now apply v1_plain_buffer.
  - now apply v1_plain_buffer.
Qed.
(** Replay: the second server, which knows the account and sent another
    challenge, refuses, unless MD5 has a collision on its first 8 bytes. *)
Lemma C68_no_replay_lem : forall cfg P e level user dom pw ch r b db w K', level <= 2 -> host_le cfg = true ->
  des_permutes P -> is_buffer 8 (sub w 24 8) ->
  replies cfg P e level user dom pw ch r b ->
  db (utf16le user) (utf16le dom) = Some (mkAccount user dom pw) ->
  N.testbit (u32_at w 20) 19 = N.testbit (ch_flags ch) 19 ->
  server P db w b = Some K' ->
  sub w 24 8 = ch_server_challenge ch
  \/ N.testbit (ch_flags ch) 19 = true
     /\ exists x y, x <> y /\ len x = 16 /\ len y = 16 /\ sub (p_md5 P x) 0 8 = sub (p_md5 P y) 0 8.
Proof.
  intros cfg P e level user dom pw ch r b db w K' L HLE HD Hw H A F S.
  pose proof (C68_one_challenge_lem _ _ _ _ _ _ _ _ _ _ _ _ _ _ L HLE HD Hw H A eq_refl S) as E. cbv zeta in E.
  unfold v1_plain, ESS in E. rewrite F in E. destruct (N.testbit (ch_flags ch) 19) eqn:B; [|now left].
  destruct (list_eq_dec N.eq_dec (sub w 24 8) (ch_server_challenge ch)) as [Q|Q]; [now left|]. right. split; [reflexivity|].
  destruct (v1_seen _ _ _ _ _ _ _ _ _ _ L HLE H) as (_ & _ & _ & _ & _ & SC).
  destruct (replies_workstation _ _ _ _ _ _ _ _ _ _ H) as [ws W]. destruct (replies_lm _ _ _ _ _ _ _ _ _ _ H) as [klm Hk].
  destruct (C32_ntlmv1_response_lem _ _ _ _ _ _ _ _ _ _ _ _ HLE L W Hk H) as (H1 & _).
  destruct (replies_v1 _ _ _ _ _ _ _ _ _ _ _ _ H L W Hk) as (_ & _ & Hr & _).
  assert (CC : is_buffer 8 (sub (field_data b 12) 0 8)).
  { assert (is_buffer 8 (e_client_challenge r)) as [E1 E2] by apply Hr.
    rewrite H1. unfold v1_lm_response, ESS. rewrite B, sub_app_l; [now split|]. unfold len. now rewrite E1. }
  exists (sub w 24 8 ++ sub (field_data b 12) 0 8), (ch_server_challenge ch ++ sub (field_data b 12) 0 8).
  split; [intros N; apply Q; now apply app_inv_tail in N|].
  destruct Hw as [L1 _], SC as [L2 _], CC as [L3 _].
  split; [unfold len; rewrite app_length, L1, L3; reflexivity|]. split; [unfold len; rewrite app_length, L2, L3; reflexivity|]. exact E.
Qed.
Lemma C68_real_des_lem : des_permutes real_prims.
Proof. exact real_des_permutes. Qed.
(** With the flag changed, a reply for one challenge serves for another. *)
Lemma C68_no_replay_refuted_lem :
  ~ (forall cfg P e level user dom pw ch r b db w K', level <= 2 -> host_le cfg = true ->
      des_permutes P -> is_buffer 8 (sub w 24 8) ->
      replies cfg P e level user dom pw ch r b ->
      db (utf16le user) (utf16le dom) = Some (mkAccount user dom pw) ->
      server P db w b = Some K' ->
      sub w 24 8 = ch_server_challenge ch).
Proof.
  intros H.
  set (other := mkChallenge None 513 (sub (p_md5 real_prims (ch_server_challenge sealed_challenge ++ repeat 170 8)) 0 8) [] None).
  set (w := challenge_bytes cfg_debug other). set (db := fun _ _ : bytes => Some (mkAccount str_User str_Domain str_Password)).
  destruct (server real_prims db w (sample_reply 2 sealed_challenge)) as [K'|] eqn:E.
  2:{ vm_compute in E. discriminate E. }
  assert (B : is_buffer 8 (sub w 24 8)).
  { destruct (sub w 24 8) as [|x1 [|x2 [|x3 [|x4 [|x5 [|x6 [|x7 [|x8 [|]]]]]]]]] eqn:Q; vm_compute in Q; try discriminate Q.
    injection Q as <- <- <- <- <- <- <- <-. closed_valid. }
  specialize (H cfg_debug real_prims host_env 2 str_User str_Domain str_Password sealed_challenge sample_entropy (sample_reply 2 sealed_challenge) db w K'
    ltac:(lia) eq_refl real_des_permutes B
    ltac:(apply sample_replies; [exact sealed_valid|vm_compute; reflexivity]) eq_refl E).
  vm_compute in H. discriminate H.
Qed.
Example C68_ex_lem :
  let w := challenge_bytes cfg_debug old_challenge in
  replies cfg_debug real_prims host_env 1 str_User str_Domain str_Password old_challenge sample_entropy (sample_reply 1 old_challenge)
  /\ is_buffer 8 (sub w 24 8) /\ N.testbit (u32_at w 20) 19 = N.testbit (ch_flags old_challenge) 19
  /\ server real_prims (fun _ _ => Some (mkAccount str_User str_Domain str_Password)) w (sample_reply 1 old_challenge) <> None
  /\ server real_prims (fun _ _ => Some (mkAccount str_User str_Domain str_Password))
       (challenge_bytes cfg_debug (mkChallenge None 513 [1; 35; 69; 103; 137; 171; 205; 238] [] None)) (sample_reply 1 old_challenge) = None.
Proof.
  intros w. split; [apply sample_replies; [exact old_valid|vm_compute; reflexivity]|].
  split; [split; [vm_compute; reflexivity|closed_valid]|]. split; [vm_compute; reflexivity|].
  split; [vm_compute; discriminate|vm_compute; reflexivity].
Qed.
