(** Facts about the client against a server that takes LMv2 responses. *)
From Coq Require Import ZifyBool ZifyNat ZifyN.
From Verif Require Import Base Nom Unicode Wire Structures Prims Messages Crypto Client Spec SpecBuild SpecCrypto SpecClient SpecServer SamplesLabour SpecLmv2 SamplesLmv2 Lib Encode Decode RoundTrip Parse Inject Samples FactsEncode FactsDecode FactsBuild DesKey RealPrims DesPerm FactsCrypto SamplesClient History Reply FactsClient FactsReply FactsInject FactsServer.

Ltac Zify.zify_post_hook ::= Z.div_mod_to_equations.

Lemma sub_app_r a b n m : len a = n -> len b = m -> sub (a ++ b) n m = b.
Proof.
  intros H J. unfold sub, len in *. replace (N.to_nat n) with (length a + 0)%nat by lia.
  rewrite skipn_app, skipn_all2 by lia. replace (length a + 0 - length a)%nat with 0%nat by lia.
  rewrite skipn_O, app_nil_l. apply firstn_all2. lia.
Qed.
Lemma lmv2_seen cfg P e level user dom pw ch r b : 3 <= level -> host_le cfg = true ->
  replies cfg P e level user dom pw ch r b ->
  beq_bytes (sub b 0 8) NTLMSSP && (u32_at b 8 =? 3) = true
  /\ field_data b 36 = utf16le user /\ field_data b 28 = utf16le dom
  /\ sub (field_data b 12) 0 16 = p_hmac_md5 P (NTOWFv2 P pw user dom) (ch_server_challenge ch ++ e_client_challenge r)
  /\ sub (field_data b 12) 16 8 = e_client_challenge r
  /\ (len (field_data b 12) =? 24) = true
  /\ is_buffer 8 (ch_server_challenge ch) /\ is_buffer 8 (e_client_challenge r).
Proof.
  intros L HLE H. destruct (replies_workstation _ _ _ _ _ _ _ _ _ _ H) as [ws W].
  destruct (replies_v2 _ _ _ _ _ _ _ _ _ _ _ H L W) as (HP & Hv & Hr & N & RF & t & T1 & T2 & V & F & Eb).
  destruct (C27_ntlmv2_response_lem _ _ _ _ _ _ _ _ _ _ _ HLE L W H) as (t' & T & H1 & H2 & H3 & H4 & _).
  assert (SC : is_buffer 8 (ch_server_challenge ch)) by apply Hv.
  assert (CC : is_buffer 8 (e_client_challenge r)) by apply Hr.
  assert (HL : len (p_hmac_md5 P (NTOWFv2 P pw user dom) (ch_server_challenge ch ++ e_client_challenge r)) = 16)
    by (unfold len; now rewrite (ok_hmac_len P HP)).
  assert (CL : len (e_client_challenge r) = 8) by (unfold len; destruct CC as [C1 _]; now rewrite C1).
  split; [rewrite Eb; apply message_head|]. split; [exact H4|]. split; [exact H3|].
  rewrite H1. unfold v2_lm_response.
  split; [now apply sub_app_l|]. split; [now apply sub_app_r|]. split; [rewrite len_app, HL, CL; reflexivity|]. now split.
Qed.

(** ** C112 *)
(** Which servers take the LMv2 response of a reply of levels 3 to 5, whatever
    challenge they sent and whatever accounts they have. *)
Lemma C112_accepted_lem : forall cfg P e level user dom pw ch r b db w, 3 <= level -> host_le cfg = true ->
  replies cfg P e level user dom pw ch r b ->
  (takes_lmv2 P db w b = true <-> exists a, db (utf16le user) (utf16le dom) = Some a
     /\ p_hmac_md5 P (NTOWFv2 P (acc_password a) (acc_user a) (acc_domain a)) (sub w 24 8 ++ e_client_challenge r)
        = p_hmac_md5 P (NTOWFv2 P pw user dom) (ch_server_challenge ch ++ e_client_challenge r)).
Proof.
  intros cfg P e level user dom pw ch r b db w L HLE H.
  destruct (lmv2_seen _ _ _ _ _ _ _ _ _ _ L HLE H) as (H1 & H2 & H3 & H4 & H5 & H6 & _).
  unfold takes_lmv2. rewrite H1, H2, H3. cbn [andb]. destruct (db (utf16le user) (utf16le dom)) as [a|].
  2:{ split; [discriminate|]. intros (a & N & _). discriminate N. }
  unfold lmv2_right. rewrite H6, H5, H4. cbn [andb]. split.
  - intros E. apply beq_bytes_eq in E. exists a. split; [reflexivity|]. now symmetry.
  - intros (a' & A & B). injection A as <-. rewrite B. apply beq_bytes_refl.
Qed.
(** The server that sent [w] and knows the account logs the user on, at every level. *)
Lemma C112_logon_lem : forall cfg P e level user dom pw w rest ch r b db, host_le cfg = true ->
  is_bytes w -> challenge_de cfg w = POk rest ch -> replies cfg P e level user dom pw ch r b ->
  db (utf16le user) (utf16le dom) = Some (mkAccount user dom pw) ->
  logs_on P db w b = true.
Proof.
  intros cfg P e level user dom pw w rest ch r b db HLE Hw D H A. unfold logs_on.
  apply C53_decoded_challenge_lem in D as [_ D]; [|exact Hw]. destruct D as (_ & _ & Ef & Es & _).
  destruct (N.le_gt_cases level 2) as [L|L].
  - destruct (C67_accepted_lem _ _ _ _ _ _ _ _ _ _ db w L HLE H) as [_ S].
    destruct (server P db w b); [reflexivity|]. elim S; [|reflexivity].
    exists (mkAccount user dom pw). split; [exact A|]. cbn [acc_password]. now rewrite <- Ef, <- Es.
  - destruct (server P db w b); [reflexivity|]. assert (L3 : 3 <= level) by lia.
    apply (C112_accepted_lem _ _ _ _ _ _ _ _ _ _ _ _ L3 HLE H). exists (mkAccount user dom pw).
    split; [exact A|]. cbn [acc_password acc_user acc_domain]. now rewrite <- Es.
Qed.
(** A server that knows the account and sent another challenge refuses the LMv2
    response, unless HMAC-MD5 has a collision. *)
Lemma C112_no_replay_lem : forall cfg P e level user dom pw ch r b db w, 3 <= level -> host_le cfg = true ->
  is_buffer 8 (sub w 24 8) -> replies cfg P e level user dom pw ch r b ->
  db (utf16le user) (utf16le dom) = Some (mkAccount user dom pw) ->
  takes_lmv2 P db w b = true ->
  sub w 24 8 = ch_server_challenge ch \/ hmac_collision P (NTOWFv2 P pw user dom).
Proof.
  intros cfg P e level user dom pw ch r b db w L HLE [B1 _] H A T.
  apply (C112_accepted_lem _ _ _ _ _ _ _ _ _ _ _ _ L HLE H) in T as (a & A' & E).
  rewrite A in A'. injection A' as <-. cbn [acc_password acc_user acc_domain] in E.
  destruct (lmv2_seen _ _ _ _ _ _ _ _ _ _ L HLE H) as (_ & _ & _ & _ & _ & _ & [S1 _] & [C1 _]).
  destruct (list_eq_dec N.eq_dec (sub w 24 8) (ch_server_challenge ch)) as [Q|Q]; [now left|]. right.
  exists (sub w 24 8 ++ e_client_challenge r), (ch_server_challenge ch ++ e_client_challenge r).
  split; [intros N; apply Q; now apply app_inv_tail in N|].
  split; [unfold len; rewrite app_length, B1, C1; reflexivity|].
  split; [unfold len; rewrite app_length, S1, C1; reflexivity|]. exact E.
Qed.
(** The LMv2 response does not depend on what the server said of itself: with
    one challenge, one account and one draw it is the same at every level from
    3, for any flags, target name, version and target information. *)
Lemma C112_target_not_bound_lem : forall cfg P e e' level level' user dom pw ch ch' r b b', 3 <= level -> 3 <= level' -> host_le cfg = true ->
  replies cfg P e level user dom pw ch r b -> replies cfg P e' level' user dom pw ch' r b' ->
  ch_server_challenge ch = ch_server_challenge ch' ->
  field_data b 12 = field_data b' 12.
Proof.
  intros cfg P e e' level level' user dom pw ch ch' r b b' L L' HLE H H' E.
  destruct (replies_workstation _ _ _ _ _ _ _ _ _ _ H) as [ws W].
  destruct (replies_workstation _ _ _ _ _ _ _ _ _ _ H') as [ws' W'].
  destruct (C27_ntlmv2_response_lem _ _ _ _ _ _ _ _ _ _ _ HLE L W H) as (? & _ & X & _).
  destruct (C27_ntlmv2_response_lem _ _ _ _ _ _ _ _ _ _ _ HLE L' W' H') as (? & _ & X' & _).
  now rewrite X, X', E.
Qed.

Lemma toy_ok hmac : (forall k m, is_buffer 16 (hmac k m)) -> prims_ok (toy_prims hmac).
Proof.
  intros H. constructor; intros; cbn [toy_prims zero_prims p_md4 p_md5 p_hmac_md5 p_des p_rc4_stream p_upper];
    try reflexivity; try apply (zeros_buffer 16); try apply (zeros_buffer 8); try apply zeros_buffer; try apply H.
  - replace (c <? 128) with true by lia. reflexivity.
  - destruct (c <? 128) eqn:E; (constructor; [|constructor]); [|assumption].
    assert (upper_ascii c < 128) by (unfold upper_ascii; destruct ((97 <=? c) && (c <=? 122)) eqn:F; lia).
    unfold is_scalar, is_scalarb. lia.
Qed.
Lemma xor_ok : prims_ok xor_prims.
Proof.
  apply toy_ok. intros k m. unfold xor_hmac. set (f := fun p : N * N => N.lxor (fst p) (snd p) mod 256).
  assert (B : is_bytes (map f (combine (k ++ zeros 16) (m ++ zeros 16)))).
  { unfold is_bytes. apply Forall_forall. intros x Hx. apply in_map_iff in Hx as (p & <- & _). unfold f.
    apply N.mod_lt. discriminate. }
  split.
  - apply firstn_length_le. rewrite app_length. unfold zeros. rewrite repeat_length. lia.
  - apply Forall_firstn, Forall_app. split; [exact B|apply (zeros_buffer 16)].
Qed.
Lemma lucky_ok t : prims_ok (lucky_prims t).
Proof.
  apply toy_ok. intros k m. split; [reflexivity|]. unfold is_bytes.
  apply Forall_app. split; [closed_valid|]. apply Forall_app. split; [apply (zeros_buffer 6)|]. apply Forall_app. split; apply le32_bytes.
Qed.
Lemma toy_replies P level ch : prims_ok P ->
  new_with_domain cfg_debug P host_env level str_User str_Domain str_Password str_target = Val (toy_client P level) ->
  valid_challenge ch ->
  answer cfg_debug P (toy_client P level) (sample_history ch) (OpAuthenticate sample_entropy) = OutBytes (toy_reply P level ch) ->
  replies cfg_debug P host_env level str_User str_Domain str_Password ch sample_entropy (toy_reply P level ch).
Proof.
  intros HP M Hv A. exists str_target, (toy_client P level), (sample_history ch).
  split.
  { split; [exact HP|]. split; [closed_valid|]. split; [closed_valid|]. split; [closed_valid|]. split; [closed_valid|exact M]. }
  split; [exact Hv|]. split; [apply sample_entropy_ok|]. split; [apply sample_accepts|exact A].
Qed.
Example C112_ex_lem :
  let w := challenge_bytes cfg_debug sealed_challenge in
  let w' := challenge_bytes cfg_debug (mkChallenge None 513 [1; 35; 69; 103; 137; 171; 205; 238] [] None) in
  let db u d := if beq_bytes u (utf16le str_User) && beq_bytes d (utf16le str_Domain)
                then Some (mkAccount str_User str_Domain str_Password) else None in
  let b := toy_reply xor_prims 3 sealed_challenge in
  replies cfg_debug xor_prims host_env 3 str_User str_Domain str_Password sealed_challenge sample_entropy b
  /\ is_bytes w /\ challenge_de cfg_debug w = POk [] sealed_challenge
  /\ is_buffer 8 (sub w' 24 8)
  /\ server xor_prims db w b = None /\ takes_lmv2 xor_prims db w b = true /\ logs_on xor_prims db w b = true
  /\ takes_lmv2 xor_prims db w' b = false
  /\ takes_lmv2 xor_prims (fun _ _ => Some (mkAccount str_Server str_Domain str_Password)) w b = false
  /\ takes_lmv2 xor_prims (fun _ _ => None) w b = false
  /\ replies cfg_debug xor_prims host_env 4 str_User str_Domain str_Password old_challenge sample_entropy (toy_reply xor_prims 4 old_challenge)
  /\ ch_server_challenge old_challenge = ch_server_challenge sealed_challenge.
Proof.
  intros w w' db b.
  split; [apply toy_replies; [exact xor_ok|vm_compute; reflexivity|exact sealed_valid|vm_compute; reflexivity]|].
  split; [closed_valid|]. split; [vm_compute; reflexivity|]. split; [closed_valid|].
  split; [vm_compute; reflexivity|]. split; [vm_compute; reflexivity|]. split; [vm_compute; reflexivity|].
  split; [vm_compute; reflexivity|]. split; [vm_compute; reflexivity|]. split; [vm_compute; reflexivity|].
  split; [|reflexivity].
  apply toy_replies; [exact xor_ok|vm_compute; reflexivity|exact old_valid|vm_compute; reflexivity].
Qed.
(** ** C67 *)
(** An HMAC that begins so does make a server accept a reply of level 3. *)
Example C67_new_levels_ex_lem :
  let P := lucky_prims (mkFileTime 4096 30000000) in
  let w := challenge_bytes cfg_debug sealed_challenge in
  replies cfg_debug P host_env 3 str_User str_Domain str_Password sealed_challenge sample_entropy (toy_reply P 3 sealed_challenge)
  /\ exists K', server P (fun _ _ => Some (mkAccount str_User str_Domain str_Password)) w (toy_reply P 3 sealed_challenge) = Some K'.
Proof.
  intros P w. split; [|eexists; vm_compute; reflexivity].
  apply toy_replies; [apply lucky_ok|vm_compute; reflexivity|exact sealed_valid|vm_compute; reflexivity].
Qed.
