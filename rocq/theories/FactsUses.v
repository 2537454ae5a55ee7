(** All that a client computes with the cryptographic primitives. *)
From Coq Require Import ZifyBool ZifyNat ZifyN.
From Verif Require Import Base Nom Unicode Wire Structures Prims Messages Crypto Client Spec SpecBuild SpecCrypto SpecClient SpecServer SpecLmv2 Lib Encode Decode RoundTrip Parse Samples FactsEncode FactsDecode FactsBuild DesKey RealPrims FactsCrypto SamplesClient History Reply FactsClient SpecTrace Trace FactsTrace SamplesLabour SamplesLmv2 SamplesTiming FactsServer FactsLmv2 FactsTiming SamplesPlaces FactsPlaces SpecQueries SamplesQueries FactsQueries SpecForgery SamplesForgery FactsForgery SpecBlocks SamplesBlocks FactsBlocks SpecSecrecy SamplesSecrecy FactsReply FactsSecrecy SpecUses SamplesUses.

Ltac Zify.zify_post_hook ::= Z.div_mod_to_equations.

(** The same HMAC-MD5 and DES; another MD4, MD5 and RC4. *)
Definition with_rest (P : prims) (A B : bytes -> bytes) (R : bytes -> nat -> bytes) : prims :=
  mkPrims A B (p_hmac_md5 P) (p_des P) R (p_upper P).
Lemma with_rest_ok P P' : prims_ok P -> prims_ok P' -> p_upper P' = p_upper P ->
  prims_ok (with_rest P (p_md4 P') (p_md5 P') (p_rc4_stream P')).
Proof.
  intros HP HP' U. constructor.
  - exact (ok_md4_len P' HP').
  - exact (ok_md4_bytes P' HP').
  - exact (ok_md5_len P' HP').
  - exact (ok_md5_bytes P' HP').
  - exact (ok_hmac_len P HP).
  - exact (ok_hmac_bytes P HP).
  - exact (ok_des_len P HP).
  - exact (ok_des_bytes P HP).
  - exact (ok_rc4_len P' HP').
  - exact (ok_rc4_bytes P' HP').
  - exact (ok_upper_ascii P HP).
  - exact (ok_upper_string P HP).
Qed.

(** A reply of levels 3 to 5 uses neither MD4 nor MD5, and RC4 at its session base key, if a
    session key is sent. *)
Lemma reply_rest_v2 cfg P A B R c n ch r : 3 <= cl_level c <= 5 -> valid_challenge ch -> is_entropy r ->
  (key_exchange (ch_flags ch) = true -> forall t, response_time ch r = Some t ->
     R (base_key_of cfg P (cl_ntlmv2_hash c) ch r t) (length (e_session_key r)) = p_rc4_stream P (base_key_of cfg P (cl_ntlmv2_hash c) ch r t) (length (e_session_key r))) ->
  reply cfg (with_rest P A B R) c n ch r = reply cfg P c n ch r.
Proof.
  intros L Hc Hr E. unfold reply. rewrite !reply_is_v2 by exact L. f_equal.
  unfold send_authenticate_ntlmv2. cbn [get_challenge get_negotiate with_state cl_state obind cl_ntlmv2_hash cl_domain cl_username].
  unfold ntlmv2_compute_response.
  set (T := match first_timestamp (ch_target_infos ch) with Some ts => Val ts | None => ft_now (e_clock r) end).
  assert (HT : T = match response_time ch r with Some t => Val t | None => Panic PExpect end).
  { unfold T, response_time. rewrite first_timestamp_some. destruct (first_some _ _); [reflexivity|].
    unfold ft_now. destruct (filetime_try_from _); reflexivity. }
  rewrite HT. clear T HT. pose proof (response_time_valid ch r) as HTV.
  destruct (response_time ch r) as [t|] eqn:Et; cbn [obind]; [|reflexivity].
  specialize (HTV t ltac:(apply Hc) eq_refl).
  rewrite ntv2_serialize by (assumption || apply Hc || apply Hr).
  destruct (av_strings_fit _ _); cbn [obind]; [|reflexivity]. rewrite v2_temp_eq. unfold hmac_md5.
  change (p_hmac_md5 (with_rest P A B R)) with (p_hmac_md5 P). set (k2 := cl_ntlmv2_hash c) in *.
  fold (v2_nt_proof P k2 (ch_server_challenge ch) (v2_temp cfg t (e_client_challenge r) (ch_target_infos ch))).
  fold (proof_of cfg P k2 ch r t). fold (base_key_of cfg P k2 ch r t).
  rewrite !encrypt_ok. change (compute_mic cfg (with_rest P A B R)) with (compute_mic cfg P).
  destruct (key_exchange (ch_flags ch)); [|reflexivity].
  replace (RC4K (with_rest P A B R) (base_key_of cfg P k2 ch r t) (e_session_key r)) with (RC4K P (base_key_of cfg P k2 ch r t) (e_session_key r)); [reflexivity|].
  unfold RC4K. change (p_rc4_stream (with_rest P A B R)) with R. rewrite E; reflexivity.
Qed.
(** A reply of levels 0 to 2 uses MD4 at the NT hash, MD5 at the challenges, and RC4. *)
Lemma reply_rest_v1 P A B R level knt klm user dom ws ch r :
  A knt = p_md4 P knt ->
  (ESS (ch_flags ch) = true -> B (ch_server_challenge ch ++ e_client_challenge r) = p_md5 P (ch_server_challenge ch ++ e_client_challenge r)) ->
  (key_exchange (ch_flags ch) = true ->
     R (old_base_key P level knt klm ch r) (length (e_session_key r)) = p_rc4_stream P (old_base_key P level knt klm ch r) (length (e_session_key r))) ->
  v1_message (with_rest P A B R) level knt klm user dom ws ch r = v1_message P level knt klm user dom ws ch r.
Proof.
  intros EA EB ER.
  assert (X1 : v1_nt_response (with_rest P A B R) (ch_flags ch) knt (ch_server_challenge ch) (e_client_challenge r)
    = v1_nt_response P (ch_flags ch) knt (ch_server_challenge ch) (e_client_challenge r)).
  { unfold v1_nt_response. change (p_md5 (with_rest P A B R)) with B. change (DESL (with_rest P A B R)) with (DESL P).
    destruct (ESS (ch_flags ch)); [rewrite EB|]; reflexivity. }
  assert (X2 : v1_lm (with_rest P A B R) level knt klm ch r = v1_lm P level knt klm ch r).
  { unfold v1_lm, v1_lm_response. rewrite X1. reflexivity. }
  assert (X3 : v1_kek (with_rest P A B R) knt (ch_server_challenge ch) (v1_lm P level knt klm ch r) = old_base_key P level knt klm ch r).
  { unfold v1_kek, old_base_key, v1_session_base_key. change (p_md4 (with_rest P A B R)) with A. rewrite EA. reflexivity. }
  unfold v1_message. cbv zeta. rewrite X1, X2, X3.
  change (v1_kek P knt (ch_server_challenge ch) (v1_lm P level knt klm ch r)) with (old_base_key P level knt klm ch r).
  unfold encrypted. destruct (key_exchange (ch_flags ch)); [|reflexivity].
  unfold RC4K. change (p_rc4_stream (with_rest P A B R)) with R. rewrite ER; reflexivity.
Qed.

(** MD4, MD5 and RC4. *)
Lemma rest_agree cfg P A B R e level user dom pw target c h : host_le cfg = true ->
  made cfg P e level user dom pw target c -> Forall typed_call h -> prims_ok (with_rest P A B R) ->
  (forall x, digests4 P level pw h x -> A x = p_md4 P x) ->
  (forall x, digests5 level h x -> B x = p_md5 P x) ->
  (forall k n, enciphers cfg P level user dom pw h k n -> R k n = p_rc4_stream P k n) ->
  made cfg (with_rest P A B R) e level user dom pw target c
  /\ forall n ch r, answered h ch r -> valid_challenge ch -> is_entropy r ->
       reply cfg (with_rest P A B R) c n ch r = reply cfg P c n ch r.
Proof.
  intros HLE M Hh HP' EA EB ER.
  pose proof (made_fresh _ _ _ _ _ _ _ _ _ M) as F. destruct (made_level _ _ _ _ _ _ _ _ _ M) as [ML _].
  destruct (made_fields _ _ _ _ _ _ _ _ _ M) as (klm & ws & K & W & Q).
  destruct (C36_nt_hashes_lem cfg P pw user dom HLE) as [N1 N2].
  destruct (C36_nt_hashes_lem cfg (with_rest P A B R) pw user dom HLE) as [N1' N2'].
  assert (N3 : NTOWFv1 (with_rest P A B R) pw = NTOWFv1 P pw) by (apply EA; left; reflexivity).
  assert (N4 : NTOWFv2 (with_rest P A B R) pw user dom = NTOWFv2 P pw user dom).
  { unfold NTOWFv2. rewrite N3. reflexivity. }
  destruct M as (HP & He & Hu & Hd & Hp & M). destruct (hash_halves _ _ _ K) as (a & b & HB).
  pose proof (halves_hash P pw a b HP Hp HB) as KB. assert (EK : klm = lm_hash_of P a b) by (rewrite K in KB; now injection KB).
  split.
  - split; [exact HP'|]. do 4 (split; [assumption|]). rewrite Q. unfold new_with_domain, compute_ntlm_hashes.
    change (lmowfv1 (with_rest P A B R)) with (lmowfv1 P). rewrite K. cbn [obind].
    change (get_workstation_name (with_rest P A B R)) with (get_workstation_name P). rewrite W. cbn [obind].
    rewrite N2', N2, N4, N1', N1, N3. reflexivity.
  - intros n ch r X Hc Hr.
    assert (L16 : length (e_session_key r) = 16%nat) by apply Hr.
    assert (L : level <= 2 \/ 3 <= level <= 5 \/ 5 < level) by lia. destruct L as [L|[L|L]].
    + subst c. rewrite !reply_v1; try assumption; cbn [cl_nt_hash cl_lm_hash cl_level cl_version cl_username cl_domain cl_workstation];
        try reflexivity; try (now apply ntowfv1_buffer); try (now apply (lmowfv1_buffer P pw)); try apply Hc.
      f_equal. rewrite N1. apply reply_rest_v1.
      * apply EA. right. eauto.
      * intros S. apply EB. split; [exact L|]. eauto 6.
      * intros S. apply ER. split; [exact L16|]. exists ch, r. split; [exact X|]. split; [exact S|]. left. split; [exact L|].
        exists a, b. split; [exact HB|]. now rewrite EK.
    + apply reply_rest_v2; try assumption; [now rewrite ML|]. intros S t T. apply ER. split; [exact L16|]. exists ch, r. split; [exact X|].
      split; [exact S|]. right. split; [exact L|]. exists t. split; [exact T|]. subst c. cbn [cl_ntlmv2_hash]. now rewrite N2.
    + rewrite <- ML in L. unfold reply, build_authenticate. change (cl_level (with_state c _)) with (cl_level c).
      destruct (cl_level c) as [|[[[|[]|]|[|[]|]|]|[[|[]|]|[]|]|]]; try lia; reflexivity.
Qed.

(** ** C128 *)
(** All that a client computes, over any history, comes from the primitives at the points
    listed: with other primitives that agree there the same client is made, and every call
    returns the same and leaves the client in the same state. *)
Lemma C128_uses_lem : forall cfg P P' e level user dom pw target c h, host_le cfg = true ->
  made cfg P e level user dom pw target c -> Forall typed_call h -> prims_ok P' ->
  same_uses cfg P P' level user dom pw h ->
  made cfg P' e level user dom pw target c
  /\ transcript cfg P' c h = transcript cfg P c h /\ run cfg P' c h = run cfg P c h.
Proof.
  intros cfg P P' e level user dom pw target c h HLE M Hh HP' (E4 & E5 & EH & ED & ER & EU).
  assert (HP : prims_ok P) by apply M.
  set (P1 := with_rest P (p_md4 P') (p_md5 P') (p_rc4_stream P')).
  assert (HP1 : prims_ok P1) by now apply with_rest_ok.
  destruct (rest_agree cfg P _ _ _ e level user dom pw target c h HLE M Hh HP1 E4 E5 ER) as [M1 T1]. fold P1 in M1, T1.
  assert (N1 : NTOWFv1 P1 pw = NTOWFv1 P pw) by (apply E4; now left).
  assert (N2 : NTOWFv2 P1 pw user dom = NTOWFv2 P pw user dom) by (unfold NTOWFv2; rewrite N1; reflexivity).
  assert (HP2 : prims_ok (with_hmac P1 (p_hmac_md5 P'))).
  { apply with_hmac_ok; [exact HP1|]. intros k m. now apply hmac_buffer. }
  assert (EH1 : forall k m, asks cfg P1 level user dom pw h k m -> p_hmac_md5 P' k m = p_hmac_md5 P1 k m).
  { intros k m A. apply EH. destruct A as [[-> ->]|(ch & r & A & Q)]; [left; rewrite N1; now split|].
    right. exists ch, r. split; [exact A|]. rewrite N1, N2 in Q. destruct Q as [(L & -> & Q)|Q]; [left|right; exact Q].
    split; [exact L|]. split; [|exact Q]. apply E4. right. eauto. }
  destruct (C119_queries_lem cfg P1 (p_hmac_md5 P') e level user dom pw target c h HLE M1 Hh HP2 EH1) as [M2 _].
  set (P2 := with_hmac P1 (p_hmac_md5 P')) in *.
  assert (P3 : with_des P2 (p_des P') = P').
  { unfold with_des, P2, with_hmac, P1, with_rest. cbn. rewrite <- EU. now destruct P'. }
  assert (ED2 : forall k x, encrypts P2 level pw h k x -> p_des P' k x = p_des P2 k x).
  { intros k x (a & b & HB & Q). change (lm_halves P2 pw a b) with (lm_halves P pw a b) in HB. apply ED. exists a, b. split; [exact HB|].
    destruct Q as [Q|(L & ch & r & A & -> & Q)]; [left; exact Q|]. right. split; [exact L|]. exists ch, r. split; [exact A|]. split.
    + unfold reply_plain, v1_plain. destruct (ESS (ch_flags ch)) eqn:S; [|reflexivity].
      change (p_md5 P2) with (p_md5 P'). rewrite E5; [reflexivity|]. split; [exact L|]. eauto 6.
    + change (NTOWFv1 P2 pw) with (NTOWFv1 P1 pw) in Q. rewrite N1 in Q. exact Q. }
  assert (HP3 : prims_ok (with_des P2 (p_des P'))) by now rewrite P3.
  destruct (C124_queries_lem cfg P2 (p_des P') e level user dom pw target c h HLE M2 Hh HP3 ED2) as [M3 _].
  rewrite P3 in M3. split; [exact M3|].
  pose proof (made_fresh _ _ _ _ _ _ _ _ _ M) as F. destruct (made_level _ _ _ _ _ _ _ _ _ M) as [ML _].
  destruct (made_fields _ _ _ _ _ _ _ _ _ M1) as (klm & ws & K & W & Q).
  destruct (C36_nt_hashes_lem cfg P1 pw user dom HLE) as [I1 I2].
  assert (B1 : is_buffer 16 (cl_nt_hash c)) by (rewrite Q; now apply ntowfv1_buffer).
  assert (B2 : is_buffer 16 (cl_lm_hash c)) by (rewrite Q; eapply lmowfv1_buffer; [|exact K]; assumption).
  assert (J1 : cl_nt_hash c = NTOWFv1 P1 pw) by (rewrite Q; exact I1).
  assert (J2 : cl_ntlmv2_hash c = NTOWFv2 P1 pw user dom) by (rewrite Q; exact I2).
  assert (J3 : cl_lm_hash c = klm) by (rewrite Q; reflexivity). assert (J4 : cl_version c = None) by (rewrite Q; reflexivity).
  apply calls_agree; [exact F|]. intros ch r A.
  assert (T : valid_challenge ch /\ is_entropy r).
  { destruct A as (h1 & h2 & -> & A). apply Forall_app in Hh as [X1 X2]. apply Forall_inv in X2. split; [now apply accepts_typed in A|exact X2]. }
  destruct T as [Hc Hr]. rewrite <- (T1 _ _ _ A Hc Hr).
  assert (R2 : reply cfg P2 c (neg_message (cl_level c) (cl_domain c)) ch r = reply cfg P1 c (neg_message (cl_level c) (cl_domain c)) ch r).
  { rewrite <- (rekey_id c) at 1. apply reply_agree; try assumption; [rewrite Q; apply M|apply F|apply neg_message_valid, F|intros _; now split|].
    rewrite ML, J1, J2. split.
    - intros L x Hx. apply EH1. right. exists ch, r. split; [exact A|]. left. eauto 6.
    - intros L t T. split; intros m Hm; apply EH1; right; exists ch, r; (split; [exact A|]); right; (split; [exact L|]);
        exists t; (split; [exact T|]); [left|right]; now split. }
  rewrite <- R2, <- P3.
  assert (HPp : is_string pw) by apply M. destruct (hash_halves _ _ _ K) as (a & b & HB).
  pose proof (halves_hash P1 pw a b HP1 HPp HB) as KB. assert (EK : klm = lm_hash_of P1 a b) by (rewrite K in KB; now injection KB).
  apply reply_des; try assumption.
  - intros L k I. apply ED2. exists a, b. split; [exact HB|]. right. split; [lia|]. exists ch, r. rewrite J1 in I. auto.
  - intros L X k I. apply ED2. exists a, b. split; [exact HB|]. right. split; [lia|]. exists ch, r. rewrite J3, EK in I. rewrite <- ML. auto 6.
Qed.

Lemma eqb_bytes_eq a b : eqb_bytes a b = true <-> a = b.
Proof. unfold eqb_bytes. destruct (list_eq_dec _ a b); split; congruence. Qed.
Lemma sparse_ok : prims_ok sparse_prims.
Proof.
  constructor; cbn [sparse_prims p_md4 p_md5 p_hmac_md5 p_des p_rc4_stream p_upper]; intros;
    repeat match goal with |- context [if ?b then _ else _] => destruct b end;
    try solve [apply mixing_ok; assumption|reflexivity|apply repeat_length|apply Forall_forall; intros ? I; apply repeat_spec in I; subst; reflexivity].
Qed.
(** A client of level 3 that replies twice, with primitives of which only the values at its
    points are left; and one of level 1, which does need MD4, MD5 and RC4 in its replies. *)
Example C128_ex_lem :
  (exists target, made cfg_debug mixing_prims host_env 3 str_User str_Domain str_Password target (mixing_client 3 str_Password))
  /\ Forall typed_call two_replies /\ prims_ok sparse_prims
  /\ same_uses cfg_debug mixing_prims sparse_prims 3 str_User str_Domain str_Password two_replies
  /\ map (fun o => match o with OutBytes b => len b | _ => 0 end) said = [38; 0; 306; 38; 0; 184]
  /\ transcript cfg_debug sparse_prims (mixing_client 3 str_Password) two_replies = said
  /\ said_old without_md4 <> said_old moving_prims /\ said_old without_md5 <> said_old moving_prims
  /\ said_old without_rc4 <> said_old moving_prims.
Proof.
  split. { exists str_target. split; [exact mixing_ok|]. repeat (split; [closed_valid|]). vm_compute. reflexivity. }
  split. { repeat constructor; try exact I; try exact sealed_valid; try exact sample_entropy_ok; closed_valid. }
  split; [exact sparse_ok|].
  split. { split; [|split; [|split; [|split; [|split]]]].
    - intros x [-> | [L _]]; [|lia]. vm_compute. reflexivity.
    - intros x [L _]. lia.
    - assert (X : forall k m, In k use_keys -> p_hmac_md5 sparse_prims k m = p_hmac_md5 mixing_prims k m).
      { intros k m I. cbn [sparse_prims p_hmac_md5]. replace (existsb (eqb_bytes k) use_keys) with true; [reflexivity|]. symmetry.
        apply existsb_exists. exists k. split; [exact I|]. now apply eqb_bytes_eq. }
      intros k m [[-> _]|(ch & r & A & [[L _]|(_ & t & T & Q)])]; [apply X; now left|lia|].
      apply two_answered in A as [A ->]. change (NTOWFv2 mixing_prims str_Password str_User str_Domain) with use_k2 in Q.
      destruct Q as [[-> _]|[-> _]]; apply X; [right; now left|]. right. right.
      destruct A as [-> | ->]; vm_compute in T; injection T as <-; vm_compute; auto.
    - intros k x (a & b & _ & [[-> _]|[L _]]); [|lia]. reflexivity.
    - intros k n (_ & ch & r & A & S & [[L _]|(_ & t & T & ->)]); [lia|]. apply two_answered in A as [[-> | ->] ->]; [|discriminate S].
      change (NTOWFv2 mixing_prims str_Password str_User str_Domain) with use_k2. vm_compute in T. injection T as <-. vm_compute. reflexivity.
    - reflexivity. }
  split. { vm_compute. reflexivity. }
  split. { vm_compute. reflexivity. }
  repeat split; vm_compute; discriminate.
Qed.
