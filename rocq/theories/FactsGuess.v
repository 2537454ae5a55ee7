(** Guessing passwords from one challenge and the reply to it. *)
From Coq Require Import ZifyBool ZifyNat ZifyN.
From Verif Require Import Base Nom Unicode Wire Structures Prims Messages Crypto Client Spec SpecBuild SpecCrypto SpecClient SpecServer SpecGuess SamplesLabour SpecLmv2 SamplesLmv2 SamplesTiming SamplesPlaces Lib Encode Decode RoundTrip Parse Inject Samples FactsEncode FactsDecode FactsBuild DesKey RealPrims DesPerm FactsCrypto SamplesClient History Reply FactsClient FactsReply FactsInject FactsServer FactsLmv2 FactsPlaces.

Ltac Zify.zify_post_hook ::= Z.div_mod_to_equations.

Lemma v1_lm_start P f k klm sc cc nolm : length cc = 8%nat -> ESS f = true -> sub (v1_lm_response P f k klm sc cc nolm) 0 8 = cc.
Proof.
  intros C S. unfold v1_lm_response. rewrite S. unfold sub. cbn [N.to_nat Pos.to_nat Pos.iter_op Nat.add skipn].
  rewrite firstn_app_exact; [reflexivity|]. rewrite C. reflexivity.
Qed.
(** What a reply of levels 0 to 2 has for [guess_fits]. *)
Lemma old_fits cfg P e level user dom pw ch r b : host_le cfg = true -> level <= 2 ->
  replies cfg P e level user dom pw ch r b ->
  (len (field_data b 20) =? 24) = true
  /\ field_data b 20 = v1_nt_response P (ch_flags ch) (NTOWFv1 P pw) (ch_server_challenge ch) (sub (field_data b 12) 0 8).
Proof.
  intros HLE L H. destruct (replies_workstation _ _ _ _ _ _ _ _ _ _ H) as [ws W].
  destruct (replies_lm _ _ _ _ _ _ _ _ _ _ H) as [klm Hk].
  destruct (replies_v1 _ _ _ _ _ _ _ _ _ _ _ _ H L W Hk) as (HP & Hv & Hr & _).
  destruct (C32_ntlmv1_response_lem _ _ _ _ _ _ _ _ _ _ _ _ HLE L W Hk H) as (R1 & R2 & _).
  assert (SC : is_buffer 8 (ch_server_challenge ch)) by apply Hv.
  assert (CC : is_buffer 8 (e_client_challenge r)) by apply Hr.
  assert (KB : is_buffer 16 (NTOWFv1 P pw)).
  { destruct (C36_nt_hashes_lem cfg P pw user dom HLE) as [E1 _]. rewrite <- E1. unfold ntowfv1, md4.
    split; [apply (ok_md4_len P HP)|apply (ok_md4_bytes P HP)]. }
  split.
  - rewrite R2. rewrite v1_nt_plain. unfold len.
    enough (X : length (v1_plain P (ch_flags ch) (ch_server_challenge ch) (e_client_challenge r)) = 8%nat)
      by (rewrite (proj1 (DESL_buffer P _ _ HP KB X)); reflexivity).
    unfold v1_plain. destruct (ESS (ch_flags ch)); [|apply SC]. unfold sub. cbn [N.to_nat Pos.to_nat Pos.iter_op Nat.add skipn].
    rewrite firstn_length, (ok_md5_len P HP). reflexivity.
  - rewrite R2, R1. unfold v1_nt_response. destruct (ESS (ch_flags ch)) eqn:S; [|reflexivity].
    rewrite v1_lm_start; [reflexivity|apply CC|exact S].
Qed.
(** What a reply of levels 3 to 5 has for [guess_fits]. *)
Lemma new_fits cfg P e level user dom pw ch r b : host_le cfg = true -> 3 <= level ->
  replies cfg P e level user dom pw ch r b ->
  (len (field_data b 20) =? 24) = false
  /\ field_data b 12 = v2_lm_response P (NTOWFv2 P pw user dom) (ch_server_challenge ch) (sub (field_data b 12) 16 8).
Proof.
  intros HLE L H. destruct (replies_workstation _ _ _ _ _ _ _ _ _ _ H) as [ws W].
  destruct (C27_ntlmv2_response_lem _ _ _ _ _ _ _ _ _ _ _ HLE L W H) as (t & T & H1 & H2 & _).
  destruct (lmv2_seen _ _ _ _ _ _ _ _ _ _ L HLE H) as (_ & _ & _ & _ & H5 & _ & _ & CC).
  split.
  - rewrite H2, !len_app, (len_buffer _ _ CC). unfold len, filetime_bytes. rewrite app_length.
    change (length [1; 1]) with 2%nat. change (length (zeros 6)) with 6%nat. change (length (zeros 4)) with 4%nat. cbn [length le32]. lia.
  - rewrite H5. exact H1.
Qed.

(** ** C132 *)
(** The password of the client fits, and no client whose password does not fit can have sent the
    reply, whatever its level and whatever it drew. *)
Lemma C132_fits_lem : forall cfg P e level user dom pw w rest ch r b, host_le cfg = true ->
  is_bytes w -> challenge_de cfg w = POk rest ch -> replies cfg P e level user dom pw ch r b ->
  guess_fits P w b user dom pw = true.
Proof.
  intros cfg P e level user dom pw w rest ch r b HLE Hw D H.
  apply C53_decoded_challenge_lem in D as [_ D]; [|exact Hw]. destruct D as (_ & _ & Ef & Es & _).
  unfold guess_fits. rewrite <- Ef, <- Es. destruct (N.le_gt_cases level 2) as [L|L].
  - destruct (old_fits _ _ _ _ _ _ _ _ _ _ HLE L H) as [E1 E2]. rewrite E1, <- E2. apply beq_bytes_refl.
  - assert (L3 : 3 <= level) by lia. destruct (new_fits _ _ _ _ _ _ _ _ _ _ HLE L3 H) as [E1 E2]. rewrite E1, <- E2. apply beq_bytes_refl.
Qed.
(** Another password fits only if the primitives give the same with its hash. *)
Lemma C132_others_lem : forall cfg P e level user dom pw w rest ch r b pw', host_le cfg = true ->
  is_bytes w -> challenge_de cfg w = POk rest ch -> replies cfg P e level user dom pw ch r b ->
  (level <= 2 -> (guess_fits P w b user dom pw' = true <->
     let x := v1_plain P (ch_flags ch) (ch_server_challenge ch) (sub (field_data b 12) 0 8) in
     DESL P (NTOWFv1 P pw') x = DESL P (NTOWFv1 P pw) x))
  /\ (3 <= level -> (guess_fits P w b user dom pw' = true <->
     let x := ch_server_challenge ch ++ e_client_challenge r in
     p_hmac_md5 P (NTOWFv2 P pw' user dom) x = p_hmac_md5 P (NTOWFv2 P pw user dom) x)).
Proof.
  intros cfg P e level user dom pw w rest ch r b pw' HLE Hw D H.
  apply C53_decoded_challenge_lem in D as [_ D]; [|exact Hw]. destruct D as (_ & _ & Ef & Es & _).
  unfold guess_fits. rewrite <- Ef, <- Es. split; intros L; cbv zeta.
  - destruct (old_fits _ _ _ _ _ _ _ _ _ _ HLE L H) as [E1 E2]. rewrite E1, <- !v1_nt_plain, <- E2. split.
    + intros B. now apply beq_bytes_eq in B.
    + intros ->. apply beq_bytes_refl.
  - destruct (new_fits _ _ _ _ _ _ _ _ _ _ HLE L H) as [E1 E2]. rewrite E1.
    destruct (lmv2_seen _ _ _ _ _ _ _ _ _ _ L HLE H) as (_ & _ & _ & _ & H5 & _). rewrite H5 in *. split.
    + intros B. apply beq_bytes_eq in B. rewrite E2 in B. unfold v2_lm_response in B. apply app_inv_tail in B. now symmetry.
    + intros B. unfold v2_lm_response. rewrite B. unfold v2_lm_response in E2. rewrite <- E2. apply beq_bytes_refl.
Qed.
(** Whoever has the password has the session key. *)
Lemma C132_key_lem : forall cfg P e level user dom pw target c h w rest ch r b K, host_le cfg = true ->
  is_bytes w -> challenge_de cfg w = POk rest ch -> made cfg P e level user dom pw target c -> concludes cfg P c h ch r b K ->
  guess_key P w b user dom pw = K.
Proof.
  intros cfg P e level user dom pw target c h w rest ch r b K HLE Hw D M C.
  pose proof (concludes_replies _ _ _ _ _ _ _ _ _ _ _ _ _ _ M C) as H.
  apply C53_decoded_challenge_lem in D as [_ D]; [|exact Hw]. destruct D as (_ & _ & Ef & Es & _).
  unfold guess_key. rewrite <- Ef, <- Es. cbv zeta. destruct (N.le_gt_cases level 2) as [L|L].
  - destruct (old_fits _ _ _ _ _ _ _ _ _ _ HLE L H) as [-> _]. destruct (replies_lm _ _ _ _ _ _ _ _ _ _ H) as [klm Hk].
    destruct (key_exchange (ch_flags ch)) eqn:X.
    + apply (C30_session_key_ntlmv1_lem _ _ _ _ _ _ _ _ _ _ _ _ _ _ _ M L HLE Hk C X).
    + symmetry. apply (C31_key_exchange_key_lem _ _ _ _ _ _ _ _ _ _ _ _ _ _ _ M L HLE Hk C X).
  - assert (L3 : 3 <= level) by lia. destruct (new_fits _ _ _ _ _ _ _ _ _ _ HLE L3 H) as [-> _].
    destruct (key_exchange (ch_flags ch)) eqn:X.
    + apply (C30_session_key_ntlmv2_lem _ _ _ _ _ _ _ _ _ _ _ _ _ _ M L3 HLE C X).
    + destruct (replies_workstation _ _ _ _ _ _ _ _ _ _ H) as [ws W].
      destruct (replies_v2 _ _ _ _ _ _ _ _ _ _ _ H L3 W) as (_ & _ & _ & _ & _ & t & T1 & _ & V & F & Eb).
      pose proof (concludes_v2 _ _ _ _ _ _ _ _ _ _ _ _ _ _ _ M L3 T1 C) as EK.
      destruct (v2_by_offset _ _ _ _ _ _ _ _ _ _ V F) as (_ & H2 & _). rewrite <- Eb in *.
      destruct (C36_nt_hashes_lem cfg P pw user dom HLE) as [_ E2]. rewrite E2 in *.
      unfold exported in EK. rewrite X in EK. rewrite H2, EK. reflexivity.
Qed.
(** Levels 0 to 5, the password "Password" and the guess "Secret". *)
Example C132_ex_lem :
  let w := challenge_bytes cfg_debug sealed_challenge in
  is_bytes w /\ challenge_de cfg_debug w = POk [] sealed_challenge
  /\ forall level, level <= 5 ->
     let b := mixing_reply level str_Password sealed_challenge in
     made cfg_debug mixing_prims host_env level str_User str_Domain str_Password str_target (mixing_client level str_Password)
     /\ replies cfg_debug mixing_prims host_env level str_User str_Domain str_Password sealed_challenge sample_entropy b
     /\ concludes cfg_debug mixing_prims (mixing_client level str_Password) (sample_history sealed_challenge) sealed_challenge sample_entropy
          b (e_session_key sample_entropy)
     /\ guess_fits mixing_prims w b str_User str_Domain str_Password = true
     /\ guess_fits mixing_prims w b str_User str_Domain str_Secret = false
     /\ guess_key mixing_prims w b str_User str_Domain str_Password = e_session_key sample_entropy.
Proof.
  cbv zeta. split; [closed_valid|]. split; [vm_compute; reflexivity|].
  intros level Hl. assert (I : In level [0; 1; 2; 3; 4; 5]) by (cbn [In]; lia). clear Hl.
  assert (M : made cfg_debug mixing_prims host_env level str_User str_Domain str_Password str_target (mixing_client level str_Password)).
  { split; [exact mixing_ok|]. do 4 (split; [closed_valid|]). destruct I as [<-|[<-|[<-|[<-|[<-|[<-|[]]]]]]]; vm_compute; reflexivity. }
  split; [exact M|].
  assert (C : concludes cfg_debug mixing_prims (mixing_client level str_Password) (sample_history sealed_challenge) sealed_challenge sample_entropy
          (mixing_reply level str_Password sealed_challenge) (e_session_key sample_entropy)).
  { split; [exact sealed_valid|]. split; [exact sample_entropy_ok|]. split; [apply sample_accepts|].
    destruct I as [<-|[<-|[<-|[<-|[<-|[<-|[]]]]]]]; (split; [vm_compute; reflexivity|split; vm_compute; reflexivity]). }
  split; [exact (concludes_replies _ _ _ _ _ _ _ _ _ _ _ _ _ _ M C)|]. split; [exact C|].
  destruct I as [<-|[<-|[<-|[<-|[<-|[<-|[]]]]]]]; (split; [vm_compute; reflexivity|split; vm_compute; reflexivity]).
Qed.
(** A challenge and the reply to it should leave open which password the user has: false. *)
Lemma C132_hidden_refuted_lem :
  ~ (forall cfg P e level user dom pw w rest ch r b pw', host_le cfg = true ->
     is_bytes w -> challenge_de cfg w = POk rest ch -> replies cfg P e level user dom pw ch r b -> is_string pw' ->
     exists e' level' r', replies cfg P e' level' user dom pw' ch r' b).
Proof.
  intros H. destruct C132_ex_lem as (B & D & X). destruct (X 3 ltac:(lia)) as (_ & R & _ & _ & N & _).
  destruct (H cfg_debug _ _ _ _ _ _ _ _ _ _ _ str_Secret eq_refl B D R ltac:(closed_valid)) as (e' & l' & r' & R').
  rewrite (C132_fits_lem cfg_debug _ _ _ _ _ _ _ _ _ _ _ eq_refl B D R') in N. discriminate N.
Qed.
