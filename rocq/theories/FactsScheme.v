(** Nobody logs on to a server that takes every response. *)
From Coq Require Import ZifyBool ZifyNat ZifyN.
From Verif Require Import Base Nom Unicode Wire Structures Prims Messages Crypto Client Spec SpecBuild SpecCrypto SpecClient SpecServer SpecLmv2 Lib Encode Decode RoundTrip Parse Samples FactsEncode FactsDecode FactsBuild DesKey RealPrims FactsCrypto SamplesClient History Reply FactsClient SpecTrace Trace FactsTrace SamplesLabour SamplesLmv2 SamplesTiming FactsServer FactsLmv2 FactsTiming SamplesPlaces FactsPlaces SpecQueries SamplesQueries FactsQueries SpecForgery SamplesForgery FactsForgery SpecBlocks SamplesBlocks FactsBlocks SpecScheme SamplesScheme.

Ltac Zify.zify_post_hook ::= Z.div_mod_to_equations.

Lemma carry_out_grows cfg P cs s : forall l hs es,
  (exists x, d_calls (carry_out cfg P cs s l hs es) = l ++ x) /\ (exists y, d_macs (carry_out cfg P cs s l hs es) = hs ++ y)
  /\ (exists z, d_ciphers (carry_out cfg P cs s l hs es) = es ++ z).
Proof.
  induction s as [b|i o f IH|k m f IH|k x f IH]; intros l hs es; cbn [carry_out].
  - repeat split; exists []; now rewrite app_nil_r.
  - destruct (IH (answer cfg P (cs i) (calls_to i l) o) (l ++ [(i, o)]) hs es) as ([x ->] & Y & Z).
    split; [|now split]. exists ([(i, o)] ++ x). now rewrite app_assoc.
  - destruct (IH (p_hmac_md5 P k m) l (hs ++ [(k, m)]) es) as (X & [y ->] & Z).
    split; [exact X|]. split; [|exact Z]. exists ([(k, m)] ++ y). now rewrite app_assoc.
  - destruct (IH (p_des P k x) l hs (es ++ [(k, x)])) as (X & Y & [z ->]).
    split; [exact X|]. split; [exact Y|]. exists ([(k, x)] ++ z). now rewrite app_assoc.
Qed.
Lemma carry_out_agree cfg P P' cs s : forall l hs es,
  let d := carry_out cfg P cs s l hs es in
  (forall i, transcript cfg P' (cs i) (calls_to i (d_calls d)) = transcript cfg P (cs i) (calls_to i (d_calls d))) ->
  (forall k m, In (k, m) (d_macs d) -> p_hmac_md5 P' k m = p_hmac_md5 P k m) ->
  (forall k x, In (k, x) (d_ciphers d) -> p_des P' k x = p_des P k x) ->
  carry_out cfg P' cs s l hs es = d.
Proof.
  induction s as [b|i o f IH|k m f IH|k x f IH]; intros l hs es; cbn [carry_out]; intros T Q R.
  - reflexivity.
  - destruct (carry_out_grows cfg P cs (f (answer cfg P (cs i) (calls_to i l) o)) (l ++ [(i, o)]) hs es) as ([x X] & _).
    rewrite (transcript_answer cfg P P' (cs i) (calls_to i l) o (calls_to i x)); [now apply IH|].
    specialize (T i). rewrite X, !calls_to_app in T. cbn [calls_to] in T. rewrite Nat.eqb_refl, <- app_assoc in T. exact T.
  - destruct (carry_out_grows cfg P cs (f (p_hmac_md5 P k m)) l (hs ++ [(k, m)]) es) as (_ & [y Y] & _).
    rewrite Q; [now apply IH|]. rewrite Y, <- app_assoc. apply in_or_app. right. now left.
  - destruct (carry_out_grows cfg P cs (f (p_des P k x)) l hs (es ++ [(k, x)])) as (_ & _ & [z Z]).
    rewrite R; [now apply IH|]. rewrite Z, <- app_assoc. apply in_or_app. right. now left.
Qed.
Lemma logs_on_both P db w b : logs_on P db w b = takes_v2 P db w b || takes_v1 P db w b.
Proof.
  unfold logs_on, takes_v2, takes_v1. destruct (server P db w b), (takes_lmv2 P db w b), (len (field_data b 20) =? 24); reflexivity.
Qed.

Lemma takes_v2_des P D db w b : takes_v2 (with_des P D) db w b = takes_v2 P db w b.
Proof.
  unfold takes_v2. change (takes_lmv2 (with_des P D) db w b) with (takes_lmv2 P db w b). unfold server.
  destruct (len (field_data b 20) =? 24); reflexivity.
Qed.

(** ** C126 *)
(** The same of a server that takes every response: if no client answered its challenge or
    encrypted the block it wants to see encrypted, and whoever sends the message has computed
    neither an HMAC of a text that begins with the challenge under the NTLMv2 key of the
    account, nor DES of that block under all three keys of the NT hash, then in some world they
    are told the same, send the same, and are refused. *)
Lemma C126_nobody_lem : forall cfg P who s db w a k, host_le cfg = true -> prims_ok P -> des_permutes P ->
  (forall i, person_made cfg P (who i)) ->
  let d := carry_out cfg P (fun i => pe_client (who i)) s [] [] [] in
  let b := d_sent d in
  Forall (fun x => typed_call (snd x)) (d_calls d) -> Forall (fun p => is_buffer 8 (fst p) /\ is_buffer 8 (snd p)) (d_ciphers d) ->
  N.of_nat (length (d_calls d) + length (d_ciphers d)) < 18446744073709551612 ->
  is_buffer 8 (sub w 24 8) ->
  db (field_data b 36) (field_data b 28) = Some a ->
  (forall i ch r, answered (calls_to i (d_calls d)) ch r ->
     ch_server_challenge ch <> sub w 24 8 /\ (pe_level (who i) <= 2 -> reply_plain P ch r <> wanted_plain P w b)) ->
  (forall m, In (NTOWFv2 P (acc_password a) (acc_user a) (acc_domain a), m) (d_macs d) -> firstn 8 m <> sub w 24 8) ->
  In k (des_keys (NTOWFv1 P (acc_password a))) -> ~ In (k, wanted_plain P w b) (d_ciphers d) ->
  wanted_plain P w b <> MAGIC ->
  NTOWFv1 P (acc_password a) <> NTOWFv2 P (acc_password a) (acc_user a) (acc_domain a) ->
  (forall i, no_luck cfg P (NTOWFv2 P (acc_password a) (acc_user a) (acc_domain a)) (sub w 24 8) (who i) (calls_to i (d_calls d))) ->
  exists H D, prims_ok (with_both P H D) /\ des_permutes (with_both P H D)
    /\ (forall i, person_made cfg (with_both P H D) (who i))
    /\ carry_out cfg (with_both P H D) (fun i => pe_client (who i)) s [] [] [] = d
    /\ NTOWFv2 (with_both P H D) (acc_password a) (acc_user a) (acc_domain a) = NTOWFv2 P (acc_password a) (acc_user a) (acc_domain a)
    /\ logs_on (with_both P H D) db w b = false.
Proof.
  intros cfg P who s db w a k HLE HP HD M d b T TP C Hsc A NA NH Hk NP NM N1 NL.
  destruct (refused_v2 cfg P who (d_calls d) (d_macs d) b db w a HLE HP M T Hsc) as (H & HP1 & Q1 & E1 & K & R1); try assumption.
  { intros i ch r B. now destruct (NA i ch r B). }
  destruct (refused_v1 cfg (with_hmac P H) who (d_calls d) (d_ciphers d) b db w a k) as (D & HP2 & HD2 & Q2 & E2 & R2); try assumption.
  { intros i. apply Q1. }
  { intros i ch r B. now destruct (NA i ch r B). }
  exists H, D. change (with_both P H D) with (with_des (with_hmac P H) D).
  split; [exact HP2|]. split; [exact HD2|]. split; [intros i; apply Q2|]. split; [|split; [exact K|]].
  - apply (carry_out_agree cfg P); fold d.
    + intros i. destruct (Q2 i) as [_ ->]. apply Q1.
    + exact E1.
    + exact E2.
  - rewrite logs_on_both, R2, orb_false_r, takes_v2_des. exact R1.
Qed.
(** There is such a world for almost every answer: for all but two of the 2^128 values that
    what begins with the server's challenge may have under the NTLMv2 key, and then for all
    values that the block may have under that DES key but for at most four more than they made
    calls and encryptions. *)
Lemma C126_odds_lem : forall cfg P who s db w a k, host_le cfg = true -> prims_ok P -> des_permutes P ->
  (forall i, person_made cfg P (who i)) ->
  let d := carry_out cfg P (fun i => pe_client (who i)) s [] [] [] in
  let b := d_sent d in
  Forall (fun x => typed_call (snd x)) (d_calls d) -> Forall (fun p => is_buffer 8 (fst p) /\ is_buffer 8 (snd p)) (d_ciphers d) ->
  is_buffer 8 (sub w 24 8) ->
  db (field_data b 36) (field_data b 28) = Some a ->
  (forall i ch r, answered (calls_to i (d_calls d)) ch r ->
     ch_server_challenge ch <> sub w 24 8 /\ (pe_level (who i) <= 2 -> reply_plain P ch r <> wanted_plain P w b)) ->
  (forall m, In (NTOWFv2 P (acc_password a) (acc_user a) (acc_domain a), m) (d_macs d) -> firstn 8 m <> sub w 24 8) ->
  In k (des_keys (NTOWFv1 P (acc_password a))) -> ~ In (k, wanted_plain P w b) (d_ciphers d) ->
  wanted_plain P w b <> MAGIC ->
  NTOWFv1 P (acc_password a) <> NTOWFv2 P (acc_password a) (acc_user a) (acc_domain a) ->
  (forall i, no_luck cfg P (NTOWFv2 P (acc_password a) (acc_user a) (acc_domain a)) (sub w 24 8) (who i) (calls_to i (d_calls d))) ->
  exists lucky, (length lucky <= 2)%nat
  /\ forall v, is_buffer 16 v -> ~ In v lucky ->
  exists lucky', (length lucky' <= length (d_calls d) + length (d_ciphers d) + 4)%nat
  /\ forall v', is_buffer 8 v' -> ~ In v' lucky' ->
  exists H D, prims_ok (with_both P H D) /\ des_permutes (with_both P H D)
    /\ (forall i, person_made cfg (with_both P H D) (who i))
    /\ carry_out cfg (with_both P H D) (fun i => pe_client (who i)) s [] [] [] = d
    /\ NTOWFv2 (with_both P H D) (acc_password a) (acc_user a) (acc_domain a) = NTOWFv2 P (acc_password a) (acc_user a) (acc_domain a)
    /\ (forall m, firstn 8 m = sub w 24 8 -> H (NTOWFv2 P (acc_password a) (acc_user a) (acc_domain a)) m = v)
    /\ D k (wanted_plain P w b) = v'
    /\ logs_on (with_both P H D) db w b = false.
Proof.
  intros cfg P who s db w a k HLE HP HD M d b T TP Hsc A NA NH Hk NP NM N1 NL.
  exists [sub (field_data b 12) 0 16; firstn 16 (field_data b 20)]. split; [reflexivity|]. intros v Hv NV.
  destruct (world_v2 cfg P who (d_calls d) (d_macs d) b db w a v HLE HP M T Hsc) as (H & HP1 & Q1 & E1 & K & V1 & R1); try assumption.
  { intros i ch r B. now destruct (NA i ch r B). }
  destruct (world_v1 cfg (with_hmac P H) who (d_calls d) (d_ciphers d) b db w a k) as (l & Ll & W); try assumption.
  { intros i. apply Q1. }
  { intros i ch r B. now destruct (NA i ch r B). }
  exists l. split; [exact Ll|]. intros v' Hv' NV'. destruct (W v' Hv' NV') as (D & HP2 & HD2 & Q2 & E2 & V2 & R2).
  exists H, D. change (with_both P H D) with (with_des (with_hmac P H) D).
  split; [exact HP2|]. split; [exact HD2|]. split; [intros i; apply Q2|]. split; [|split; [exact K|split; [exact V1|split; [exact V2|]]]].
  - apply (carry_out_agree cfg P); fold d.
    + intros i. destruct (Q2 i) as [_ ->]. apply Q1.
    + exact E1.
    + exact E2.
  - rewrite logs_on_both, R2, orb_false_r, takes_v2_des. apply R1; intros E; apply NV; rewrite E; cbn; auto.
Qed.
Example C126_ex_lem :
  let b := d_sent both_done in
  (forall i, person_made cfg_debug mixing_prims (folk i))
  /\ des_permutes mixing_prims
  /\ Forall (fun x => typed_call (snd x)) (d_calls both_done) /\ Forall (fun p => is_buffer 8 (fst p) /\ is_buffer 8 (snd p)) (d_ciphers both_done)
  /\ (length (d_calls both_done), length (d_macs both_done), length (d_ciphers both_done)) = (6, 1, 3)%nat
  /\ is_buffer 8 (sub third_message 24 8)
  /\ one_account (field_data b 36) (field_data b 28) = Some (mkAccount str_User str_Domain str_Password)
  /\ (forall i ch r, answered (calls_to i (d_calls both_done)) ch r ->
        ch_server_challenge ch <> sub third_message 24 8 /\ (pe_level (folk i) <= 2 -> reply_plain mixing_prims ch r <> wanted_plain mixing_prims third_message b))
  /\ (forall m, In (NTOWFv2 mixing_prims str_Password str_User str_Domain, m) (d_macs both_done) -> firstn 8 m <> sub third_message 24 8)
  /\ (des_keys (NTOWFv1 mixing_prims str_Password) = [key1; key2; key3] /\ ~ In (key1, wanted_plain mixing_prims third_message b) (d_ciphers both_done)
      /\ In (key2, wanted_plain mixing_prims third_message b) (d_ciphers both_done) /\ In (key3, wanted_plain mixing_prims third_message b) (d_ciphers both_done))
  /\ wanted_plain mixing_prims third_message b <> MAGIC
  /\ NTOWFv1 mixing_prims str_Password <> NTOWFv2 mixing_prims str_Password str_User str_Domain
  /\ (forall i, no_luck cfg_debug mixing_prims (NTOWFv2 mixing_prims str_Password str_User str_Domain) (sub third_message 24 8)
        (folk i) (calls_to i (d_calls both_done)))
  /\ logs_on mixing_prims one_account third_message b = false.
Proof.
  assert (W : wanted_plain mixing_prims third_message (d_sent both_done) = third_nonce) by (vm_compute; reflexivity).
  assert (CL : d_calls both_done = guess_calls) by (vm_compute; reflexivity).
  assert (CI : d_ciphers both_done = [(key1, ch_server_challenge other_challenge); (key2, third_nonce); (key3, third_nonce)]) by reflexivity.
  cbv zeta. rewrite W, CL, CI.
  split. { intros [|i]; (split; [exact mixing_ok|]); repeat (split; [closed_valid|]); vm_compute; reflexivity. }
  split. { exact mixing_permutes. }
  split. { repeat constructor; try exact I; try exact sealed_valid; try exact sample_entropy_ok; closed_valid. }
  split. { repeat (apply Forall_cons; [cbn [fst snd]; split; closed_valid|]). constructor. }
  split. { reflexivity. }
  split. { closed_valid. }
  split. { reflexivity. }
  split. { intros i ch r B. apply guess_answered in B as [[ -> | -> ] -> ]; (split; [vm_compute; discriminate|intros _; vm_compute; discriminate]). }
  split. { intros m [E|[]]. vm_compute in E. discriminate E. }
  split. { split; [vm_compute; reflexivity|]. split; [|split; cbn; auto]. intros I. vm_compute in I. intuition discriminate. }
  split. { discriminate. }
  split. { vm_compute. discriminate. }
  split. { intros [|i]; (split; [vm_compute; discriminate|]); intros ch r t B E; apply guess_answered in B as [B -> ];
    destruct B as [ -> | -> ]; vm_compute in E; injection E as <-; (split; [intros _|]; vm_compute; discriminate). }
  vm_compute. reflexivity.
Qed.
