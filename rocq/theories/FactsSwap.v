(** Names in AV pairs between hosts of different byte orders. *)
From Coq Require Import ZifyBool ZifyNat ZifyN.
From Verif Require Import Base Nom Unicode Wire Structures Prims Messages Crypto Client Spec SpecBuild SpecCrypto SpecClient SpecHandshake SpecEndian SpecSwap Lib Encode Decode RoundTrip Parse Samples FactsEncode FactsDecode FactsBuild DesKey RealPrims FactsCrypto SamplesClient History Reply FactsClient FactsReply FactsTrace Inject FactsHandshake SamplesNames SamplesEndian FactsEndian.

Ltac Zify.zify_post_hook ::= Z.div_mod_to_equations.

(** ** C104 *)
Lemma swap_unit_bytes c : c < 65536 -> le16 (swap_unit c) = rev (le16 c).
Proof.
  intros H. unfold swap_unit, le16. cbn [rev app]. f_equal; [lia|]. f_equal. lia.
Qed.
Lemma swap_text_bytes s : Forall (fun c => c < 65536) s -> utf16le (swap_text s) = utf16be s.
Proof.
  unfold utf16be, utf16le, swap_text. induction 1 as [|c s Hc _ IH]; [reflexivity|]. cbn [map flat_map].
  assert (S : swap_unit c < 65536) by (unfold swap_unit; lia).
  unfold utf16le_char at 1 3. replace (swap_unit c <? 65536) with true by lia. replace (c <? 65536) with true by lia.
  rewrite swap_unit_bytes, IH by exact Hc. reflexivity.
Qed.
Lemma swap_text_twice s : Forall (fun c => c < 65536) s -> swap_text (swap_text s) = s.
Proof.
  unfold swap_text. induction 1 as [|c s Hc _ IH]; [reflexivity|]. cbn [map]. rewrite IH. f_equal. unfold swap_unit. lia.
Qed.
Lemma plain_small s : plain_string s -> Forall (fun c => c < 65536) s.
Proof.
  intros [_ H]. apply Forall_forall. intros c Hc. rewrite forallb_forall in H. specialize (H c Hc). unfold plain_char in H. lia.
Qed.

(** Which texts come out as what: the exchange undoes itself on text the crate
    can read; plain ASCII text comes out as other text, which the crate can
    read as well. *)
Lemma C104_swap_lem :
  (forall cfg a, carried_av cfg a -> swap_pair (swap_pair a) = a)
  /\ (forall s, Forall (fun c => 0 < c < 128) s ->
        plain_string (swap_text s) /\ swap_text s = map (fun c => 256 * c) s /\ (swap_text s = s -> s = [])).
Proof.
  split.
  - intros cfg a H. destruct a; try reflexivity; cbn [swap_pair carried_av] in *; f_equal; apply swap_text_twice, plain_small, H.
  - intros s H. assert (E : swap_text s = map (fun c => 256 * c) s).
    { unfold swap_text. apply map_ext_in. intros c Hc. rewrite Forall_forall in H. specialize (H c Hc). unfold swap_unit. lia. }
    split; [|split; [exact E|]].
    + rewrite E. split.
      * apply Forall_map. eapply Forall_impl; [|exact H]. intros c Hc. cbv beta in *. unfold is_scalar, is_scalarb. lia.
      * rewrite forallb_forall. intros x Hx. apply in_map_iff in Hx. destruct Hx as (c & <- & Hc).
        rewrite Forall_forall in H. specialize (H c Hc). unfold plain_char. lia.
    + rewrite E. destruct H as [|c s Hc _]; [reflexivity|]. cbn [map]. intros X. injection X as X _. lia.
Qed.

Lemma swap_av cfg cfg0 a : host_le cfg = false -> carried_av cfg0 a -> av_bytes cfg a = av_bytes (le_host cfg) (swap_pair a).
Proof.
  intros B C. assert (V : av_value cfg a = av_value (le_host cfg) (swap_pair a)).
  { destruct a; try reflexivity; cbn [swap_pair av_value carried_av] in *; unfold utf16_host, le_host; rewrite B; cbn [host_le];
      symmetry; apply swap_text_bytes, plain_small, C. }
  unfold av_bytes. rewrite V. replace (av_code (swap_pair a)) with (av_code a) by now destruct a. reflexivity.
Qed.
Lemma swap_avs cfg cfg0 l : host_le cfg = false -> Forall (carried_av cfg0) l ->
  av_list_bytes cfg l = av_list_bytes (le_host cfg) (map swap_pair l).
Proof.
  intros B. unfold av_list_bytes. induction 1 as [|a l Ha _ IH]; [reflexivity|]. cbn [map flat_map]. now rewrite IH, (swap_av cfg cfg0 a).
Qed.
Lemma swap_avs_len cfg cfg' l : Forall (carried_av cfg) l -> len (av_list_bytes cfg' (map swap_pair l)) = len (av_list_bytes cfg' l).
Proof.
  intros F. set (be := mkConfig (debug cfg) (strict cfg) (windows cfg) false).
  rewrite (av_list_len cfg' be l), (swap_avs be cfg l eq_refl F). apply av_list_len.
Qed.
Lemma swap_valid a cfg : valid_av_pair a -> carried_av cfg (swap_pair a) -> valid_av_pair (swap_pair a).
Proof. destruct a; cbn; try tauto; intros _ [H _]; exact H. Qed.
Lemma swap_eol l : eol_terminated l -> eol_terminated (map swap_pair l).
Proof.
  intros [->|(l' & ->)]; [left; reflexivity|]. right. exists (map swap_pair l'). now rewrite map_app.
Qed.
Lemma le_decodes cfg b : challenge_de cfg b = challenge_de (le_host cfg) b.
Proof. now destruct cfg. Qed.

(** A challenge of a big-endian server, as every client reads it: the names of
    the AV pairs with the bytes of each unit exchanged, all else as sent. *)
Lemma C104_challenge_lem : forall cs cc ch, host_le cs = false -> valid_challenge ch -> sendable_challenge cs ch ->
  Forall (carried_av cc) (map swap_pair (ch_target_infos ch)) ->
  exists w, serialize cs (challenge_ser cs ch) = Val w
    /\ challenge_de cc w = POk [] (seen_challenge (with_infos ch (map swap_pair (ch_target_infos ch)))).
Proof.
  intros cs cc ch B V (F & C & Z & R) C'. exists (challenge_bytes cs ch). split.
  { rewrite challenge_serialize by exact V. apply fitsb_fits in F. now rewrite F. }
  set (ch' := with_infos ch (map swap_pair (ch_target_infos ch))).
  assert (EF : challenge_fields cs ch = challenge_fields (le_host cc) ch').
  { unfold challenge_fields, ch', with_infos. cbn [ch_target_name ch_target_infos]. f_equal. f_equal. unfold av_list_field.
    pose proof (swap_avs cs cs _ B C) as E. rewrite (same_av_list (le_host cs) (le_host cc) eq_refl) in E.
    destruct (ch_target_infos ch); [reflexivity|]. cbn [map] in *. now rewrite E. }
  assert (EB : challenge_bytes cs ch = challenge_bytes (le_host cc) ch') by (unfold challenge_bytes; now rewrite EF).
  rewrite EB, le_decodes, <- (app_nil_r (challenge_bytes (le_host cc) ch')). apply challenge_seen; [reflexivity| |].
  - destruct V as (V1 & V2 & V3 & V4 & V5). split; [exact V1|]. split; [exact V2|]. split; [exact V3|]. split; [|exact V5].
    apply Forall_map. rewrite Forall_map in C'. rewrite Forall_forall in *. intros a Ha. eapply swap_valid; eauto.
  - split; [now rewrite <- EF|]. split; [exact C'|]. split; [now apply swap_eol|exact R].
Qed.

(** The reply of a client on a big-endian host at levels 3 to 5, as every server
    of the crate reads it: the names of the server's AV pairs come back with the
    bytes of each unit exchanged.  (So a big-endian server, whose own names
    reached the client that way, reads them as it sent them.)  Encoding what was
    read gives the response as it was sent on a little-endian host; on a
    big-endian host it gives it with the server's names as the client holds
    them in little-endian order. *)
Lemma C104_reply_lem : forall cc cs P e level user dom pw ch r b, host_le cc = false -> 3 <= level ->
  replies cc P e level user dom pw ch r b -> host_time cs (e_clock r) ->
  Forall (carried_av cs) (ch_target_infos ch) -> Forall (carried_av cs) (map swap_pair (ch_target_infos ch)) ->
  exists t a, response_time ch r = Some t /\ authenticate_de cs b = POk [] a
    /\ a_user a = seen_text (Some user) /\ a_domain a = seen_text (Some dom)
    /\ let nt := mkNtv2 t (e_client_challenge r) (map swap_pair (ch_target_infos ch)) in
       a_nt a = Some (NtV2 nt)
       /\ ntv2_bytes cs nt = if host_le cs then field_data b 20
                             else ntv2_bytes (le_host cs) (mkNtv2 t (e_client_challenge r) (ch_target_infos ch)).
Proof.
  intros cc cs P e level user dom pw ch r b B L H Hh C C'.
  destruct (replies_workstation _ _ _ _ _ _ _ _ _ _ H) as [ws W].
  destruct (replies_v2 _ _ _ _ _ _ _ _ _ _ _ H L W) as (HP & VC & HR & _ & _ & t & T & TV & V & F & ->).
  destruct (v2_by_offset _ _ _ _ _ _ _ _ _ _ V F) as (_ & H2 & _).
  set (m := v2_message cc P _ user dom ws _ ch r t) in *.
  set (nt := mkNtv2 t (e_client_challenge r) (map swap_pair (ch_target_infos ch))).
  set (m' := mkAuthenticate (a_lm m) (Some (NtV2 nt)) (a_domain m) (a_user m) (a_workstation m) (a_session_key m)
               (a_flags m) (a_version m) (a_mic m) (a_exported_key m)).
  assert (EN : ntv2_bytes cc (mkNtv2 t (e_client_challenge r) (ch_target_infos ch)) = ntv2_bytes (le_host cs) nt).
  { unfold ntv2_bytes, nt. cbn [nt_timestamp nt_client_challenge nt_target_infos].
    rewrite (swap_avs cc cs _ B C), (same_av_list (le_host cc) (le_host cs) eq_refl). reflexivity. }
  assert (EF : authenticate_fields cc m = authenticate_fields (le_host cs) m').
  { unfold authenticate_fields, m'. cbn [a_lm a_nt a_domain a_user a_workstation a_session_key].
    change (a_nt m) with (Some (NtV2 (mkNtv2 t (e_client_challenge r) (ch_target_infos ch)))). cbn [opt_map nt_bytes]. now rewrite EN. }
  assert (EB : authenticate_bytes cc m = authenticate_bytes (le_host cs) m') by (unfold authenticate_bytes; now rewrite EF).
  assert (DT : decodable_time cs t) by now apply (response_time_decodable cs ch r).
  exists t, (seen_authenticate m'). split; [exact T|]. split.
  { rewrite EB. replace (authenticate_de cs) with (authenticate_de (le_host cs)) by now destruct cs.
    rewrite <- (app_nil_r (authenticate_bytes (le_host cs) m')). apply authenticate_seen; [reflexivity| |].
    - destruct V as (V1 & V2 & V3 & V4 & V5 & V6 & V7 & V8 & V9 & V10).
      split; [exact V1|]. split; [|repeat (split; [assumption|]); assumption].
      split; [exact TV|]. split; [apply HR|]. destruct VC as (_ & _ & _ & VA & _). cbn [nt nt_target_infos].
      apply Forall_map. rewrite Forall_map in C'. rewrite Forall_forall in *. intros a Ha. eapply swap_valid; eauto.
    - split; [now rewrite <- EF|]. split; [|reflexivity]. split; [exact DT|exact C']. }
  split; [reflexivity|]. split; [reflexivity|]. cbv zeta. split; [reflexivity|]. fold nt.
  destruct (host_le cs) eqn:E.
  - apply (app_inv_tail (zeros 4)). rewrite H2. rewrite <- v2_temp_eq, EN. destruct cs; cbn in E; subst; reflexivity.
  - unfold ntv2_bytes, nt. cbn [nt_timestamp nt_client_challenge nt_target_infos].
    assert (Cm : Forall (carried_av cs) (map swap_pair (ch_target_infos ch))) by exact C'.
    rewrite (swap_avs cs cs _ E Cm), map_map.
    replace (map (fun x => swap_pair (swap_pair x)) (ch_target_infos ch)) with (ch_target_infos ch).
    2: { rewrite <- (map_id (ch_target_infos ch)) at 1. apply map_ext_in. intros a Ha. symmetry.
         apply (proj1 C104_swap_lem cs). rewrite Forall_forall in C. now apply C. }
    reflexivity.
Qed.
(** Lists of AV pairs are the same bytes on hosts of both byte orders exactly
    if each text is. *)
Lemma C104_same_bytes_lem : forall cfg cfg' l, host_le cfg = true -> host_le cfg' = false ->
  (av_list_bytes cfg l = av_list_bytes cfg' l <-> Forall (fun a => both_ways (text_of a)) l).
Proof.
  intros cfg cfg' l L B. unfold av_list_bytes. induction l as [|a l IH]; [split; constructor|].
  rewrite Forall_cons_iff, <- IH. cbn [flat_map].
  assert (E : av_bytes cfg a = av_bytes cfg' a <-> both_ways (text_of a)).
  { unfold av_bytes. rewrite (av_value_len cfg cfg' a). unfold both_ways.
    destruct a; cbn [av_value text_of]; unfold utf16_host; rewrite ?L, ?B; split; intros X; try reflexivity;
      try (apply app_inv_head, app_inv_head in X; exact X); now rewrite X. }
  rewrite <- E. split.
  - intros X. apply app_inj in X; [tauto|]. unfold av_bytes. rewrite !app_length.
    pose proof (av_value_len cfg cfg' a) as Z. unfold len in Z. cbn [le16 length]. lia.
  - intros [X Y]. congruence.
Qed.
(** "Domain" in the challenge of a big-endian server is read as six characters
    from U+4400 on; the reply of a big-endian client gives those back to a
    little-endian server that sent "Domain". *)
Example C104_ex_lem :
  valid_challenge sealed_challenge /\ sendable_challenge cfg_big_endian sealed_challenge
  /\ Forall (carried_av cfg_debug) (ch_target_infos sealed_challenge)
  /\ Forall (carried_av cfg_debug) (map swap_pair (ch_target_infos sealed_challenge))
  /\ replies cfg_big_endian real_prims bare_env 5 str_User str_Domain str_Password sealed_challenge sample_entropy
       (far_reply 5 str_User str_Domain str_Password sealed_challenge)
  /\ host_time cfg_debug (e_clock sample_entropy)
  /\ In (AvNbDomainName str_Domain) (ch_target_infos sealed_challenge)
  /\ swap_text str_Domain = [17408; 28416; 27904; 24832; 26880; 28160].
Proof.
  split; [exact sealed_valid|]. split; [split; [|split; [|split]]|].
  - repeat constructor; vm_compute; discriminate.
  - closed_valid.
  - right. exists (removelast (ch_target_infos sealed_challenge)). reflexivity.
  - reflexivity.
  - split; [closed_valid|]. split; [closed_valid|].
    split; [destruct C103_ex_lem as [[M C] _]; exact (concludes_replies _ _ _ _ _ _ _ _ _ _ _ _ _ _ M C)|].
    split; [closed_valid|]. split; [vm_compute; tauto|reflexivity].
Qed.
