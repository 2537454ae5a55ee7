(** What a reply tells about the session key. *)
From Coq Require Import ZifyBool ZifyNat ZifyN.
From Verif Require Import Base Nom Unicode Wire Structures Prims Messages Crypto Client Spec SpecBuild SpecCrypto SpecClient Lib Encode Decode RoundTrip Parse Samples FactsEncode FactsDecode FactsBuild DesKey RealPrims FactsCrypto SamplesClient History Reply FactsClient FactsReply SpecTrace Trace FactsTrace SamplesLabour SamplesLmv2 SamplesTiming FactsLmv2 FactsTiming SamplesPlaces FactsPlaces SpecQueries SamplesQueries FactsQueries SpecSecrecy SamplesSecrecy.

Ltac Zify.zify_post_hook ::= Z.div_mod_to_equations.

Definition with_rc4 (P : prims) (R : bytes -> nat -> bytes) : prims :=
  mkPrims (p_md4 P) (p_md5 P) (p_hmac_md5 P) (p_des P) R (p_upper P).

(** Primitives under which the replies are the same give the same calls. *)
Lemma calls_agree cfg P P' c h : fresh c ->
  (forall ch r, answered h ch r -> reply cfg P' c (neg_message (cl_level c) (cl_domain c)) ch r = reply cfg P c (neg_message (cl_level c) (cl_domain c)) ch r) ->
  transcript cfg P' c h = transcript cfg P c h /\ run cfg P' c h = run cfg P c h.
Proof.
  intros F E.
  assert (G : forall h2 h1, h = h1 ++ h2 ->
    transcript cfg P' (run cfg P c h1) h2 = transcript cfg P (run cfg P c h1) h2
    /\ run cfg P' (run cfg P c h1) h2 = run cfg P (run cfg P c h1) h2).
  2:{ exact (G h [] eq_refl). }
  induction h2 as [|o h2 IH]; intros h1 Q; [split; reflexivity|]. cbn [transcript].
  assert (S : step cfg P' (run cfg P c h1) o = step cfg P (run cfg P c h1) o).
  { destruct o as [|ch'|r]; cbn [step]; [reflexivity|reflexivity|].
    assert (D : (exists n ch, ready (cl_state (run cfg P c h1)) n ch) \/ forall n ch, ~ ready (cl_state (run cfg P c h1)) n ch).
    { unfold ready. destruct (cl_state (run cfg P c h1)) as [|n|n ch|n ch a].
      - right. intros n ch [R|[a R]]; discriminate R.
      - right. intros n' ch [R|[a R]]; discriminate R.
      - left. exists n, ch. now left.
      - left. exists n, ch. right. now exists a. }
    destruct D as [(n & ch & R)|N].
    2:{ destruct (not_ready_agree cfg P P' (cl_lm_hash (run cfg P c h1)) (cl_nt_hash (run cfg P c h1)) (cl_ntlmv2_hash (run cfg P c h1)) _ r N) as (w & W1 & W2).
        rewrite rekey_id in W1. rewrite W1, W2. reflexivity. }
    destruct (ready_accepts _ _ _ _ _ _ F R) as [-> A]. rewrite !(send_authenticate_ready _ _ _ _ _ _ R).
    destruct (run_dress cfg P c h1) as (s & b & X). rewrite X, !reply_dress. rewrite E; [reflexivity|].
    exists h1, h2. split; [exact Q|exact A]. }
  destruct (IH (h1 ++ [o])) as [I1 I2]; [now rewrite <- app_assoc|]. rewrite run_snoc in I1, I2.
  split.
  - rewrite S. f_equal. exact I1.
  - unfold run at 1 3. cbn [fold_left]. rewrite S. exact I2.
Qed.

(** What a client returns depends on the history through its last negotiate call and the first
    answer to it only. *)
Lemma not_ready_same cfg P P' c s b b' r : (s = StNew \/ exists n, s = StNegotiateSent n) ->
  exists w, send_authenticate cfg P' (dress c s b') r = Panic w /\ send_authenticate cfg P (dress c s b) r = Panic w.
Proof.
  intros H. destruct c as [st user klm knt k2 dom ws target buf ver level].
  unfold send_authenticate, build_authenticate, send_authenticate_ntlmv1, send_authenticate_ntlmv2, dress, with_state, with_buffer.
  cbn [cl_state cl_username cl_lm_hash cl_nt_hash cl_ntlmv2_hash cl_domain cl_workstation cl_target cl_buffer cl_version cl_level].
  destruct H as [->|[n ->]]; cbn [get_challenge get_negotiate cl_state obind];
    destruct level as [|[[[]|[]|]|[[]|[]|]|]]; cbn [obind]; eauto.
Qed.
Lemma answer_alike cfg P P' c h h' o : fresh c -> negotiable (cl_level c) (cl_domain c) ->
  (untouched h -> untouched h') -> (awaiting h -> awaiting h') -> (forall ch, accepts h ch -> accepts h' ch) ->
  (forall ch r, o = OpAuthenticate r -> accepts h ch ->
     reply cfg P' c (neg_message (cl_level c) (cl_domain c)) ch r = reply cfg P c (neg_message (cl_level c) (cl_domain c)) ch r) ->
  answer cfg P' c h' o = answer cfg P c h o.
Proof.
  intros F N U W A E. destruct o as [|ch|r]; [|reflexivity|].
  - unfold answer. cbn [step]. now rewrite !(send_neg_run _ _ _ F) by exact N.
  - destruct (phase h) as [(H & _)|[(H & _)|(ch & H & _)]].
    + destruct (run_states cfg P c F h N) as (S & _). destruct (run_states cfg P' c F h' N) as (S' & _).
      destruct (run_dress cfg P c h) as (s & b & X). destruct (run_dress cfg P' c h') as (s' & b' & X').
      assert (s = StNew) by (specialize (S H); rewrite X in S; exact S).
      assert (s' = StNew) by (specialize (S' (U H)); rewrite X' in S'; exact S'). subst s s'.
      unfold answer. cbn [step]. rewrite X, X'.
      destruct (not_ready_same cfg P P' c StNew b b' r) as (w & -> & ->); [now left|reflexivity].
    + destruct (run_states cfg P c F h N) as (_ & S & _). destruct (run_states cfg P' c F h' N) as (_ & S' & _).
      destruct (run_dress cfg P c h) as (s & b & X). destruct (run_dress cfg P' c h') as (s' & b' & X').
      assert (Y : s = StNegotiateSent (neg_message (cl_level c) (cl_domain c))) by (specialize (S H); rewrite X in S; exact S).
      assert (Y' : s' = StNegotiateSent (neg_message (cl_level c) (cl_domain c))) by (specialize (S' (W H)); rewrite X' in S'; exact S').
      subst s s'. unfold answer. cbn [step]. rewrite X, X'.
      destruct (not_ready_same cfg P P' c (StNegotiateSent (neg_message (cl_level c) (cl_domain c))) b b' r) as (w & -> & ->); [right; eauto|reflexivity].
    + rewrite (answer_accepts cfg P c F h ch r N H), (answer_accepts cfg P' c F h' ch r N (A _ H)). unfold sent. now rewrite (E ch r eq_refl H).
Qed.
(** A request for a reply more or less does not matter for that. *)
Lemma more_phase h r g :
  (untouched (h ++ OpAuthenticate r :: g) <-> untouched (h ++ g))
  /\ (awaiting (h ++ OpAuthenticate r :: g) <-> awaiting (h ++ g))
  /\ (forall ch, accepts (h ++ OpAuthenticate r :: g) ch <-> accepts (h ++ g) ch).
Proof.
  induction g as [|o g (I1 & I2 & I3)] using rev_ind.
  - rewrite app_nil_r. rewrite untouched_snoc, awaiting_snoc. split; [cbn [is_negociate]; tauto|]. split; [tauto|].
    intros ch. now rewrite accepts_snoc.
  - rewrite app_comm_cons, !app_assoc. rewrite !untouched_snoc, !awaiting_snoc. split; [tauto|]. split; [destruct o; tauto|].
    intros ch. rewrite !accepts_snoc. destruct o; try tauto; try (now rewrite I3).
    rewrite I3, I2. tauto.
Qed.
Lemma transcript_snoc cfg P c h o : transcript cfg P c (h ++ [o]) = transcript cfg P c h ++ [answer cfg P c h o].
Proof. now rewrite transcript_app. Qed.
Lemma afterwards_agree cfg P P' c h r r' g : fresh c -> negotiable (cl_level c) (cl_domain c) ->
  transcript cfg P' c h = transcript cfg P c h ->
  answer cfg P' c h (OpAuthenticate r') = answer cfg P c h (OpAuthenticate r) ->
  (forall ch0 r0, answered (h ++ g) ch0 r0 ->
     reply cfg P' c (neg_message (cl_level c) (cl_domain c)) ch0 r0 = reply cfg P c (neg_message (cl_level c) (cl_domain c)) ch0 r0) ->
  transcript cfg P' c (h ++ OpAuthenticate r' :: g) = transcript cfg P c (h ++ OpAuthenticate r :: g).
Proof.
  intros F N T B. induction g as [|o g IH] using rev_ind; intros E.
  - rewrite !transcript_snoc. now rewrite T, B.
  - rewrite !app_comm_cons, !app_assoc, !transcript_snoc. rewrite IH.
    + f_equal. f_equal. destruct (more_phase h r g) as (U & W & A). destruct (more_phase h r' g) as (U' & W' & A').
      apply answer_alike; [exact F|exact N|now rewrite U, U'|now rewrite W, W'| |].
      * intros ch H. now apply A', A.
      * intros ch r0 -> H. apply E. rewrite app_assoc. apply answered_snoc. right. split; [reflexivity|]. now apply A.
    + intros ch0 r0 H. apply E. rewrite app_assoc. apply answered_snoc. now left.
Qed.

(** A reply of levels 3 to 5 uses RC4 at its session base key only. *)
Lemma reply_rc4 cfg P R c n ch r : 3 <= cl_level c <= 5 -> valid_challenge ch -> is_entropy r ->
  (forall t, response_time ch r = Some t ->
     R (base_key_of cfg P (cl_ntlmv2_hash c) ch r t) (length (e_session_key r)) = p_rc4_stream P (base_key_of cfg P (cl_ntlmv2_hash c) ch r t) (length (e_session_key r))) ->
  reply cfg (with_rc4 P R) c n ch r = reply cfg P c n ch r.
Proof.
  intros L Hc Hr E. unfold reply. rewrite !reply_is_v2 by exact L. f_equal.
  unfold send_authenticate_ntlmv2. cbn [get_challenge get_negotiate with_state cl_state obind cl_ntlmv2_hash cl_domain cl_username].
  unfold ntlmv2_compute_response.
  set (T := match first_timestamp (ch_target_infos ch) with Some ts => Val ts | None => ft_now (e_clock r) end).
  assert (HT : T = match response_time ch r with Some t => Val t | None => Panic PExpect end).
  { unfold T, response_time. rewrite first_timestamp_some. destruct (first_some _ _); [reflexivity|].
    unfold ft_now. destruct (filetime_try_from _); reflexivity. }
  rewrite HT. clear T HT. pose proof (response_time_valid ch r) as HTV.
  destruct (response_time ch r) as [t|] eqn:Et; cbn [obind]; [|reflexivity].
  specialize (HTV t ltac:(apply Hc) eq_refl).
  rewrite ntv2_serialize by (assumption || apply Hc || apply Hr).
  destruct (av_strings_fit _ _); cbn [obind]; [|reflexivity]. rewrite v2_temp_eq. unfold hmac_md5.
  change (p_hmac_md5 (with_rc4 P R)) with (p_hmac_md5 P). set (k2 := cl_ntlmv2_hash c) in *.
  fold (v2_nt_proof P k2 (ch_server_challenge ch) (v2_temp cfg t (e_client_challenge r) (ch_target_infos ch))).
  fold (proof_of cfg P k2 ch r t). fold (base_key_of cfg P k2 ch r t).
  rewrite !encrypt_ok. change (compute_mic cfg (with_rc4 P R)) with (compute_mic cfg P).
  destruct (key_exchange (ch_flags ch)); [|reflexivity].
  replace (RC4K (with_rc4 P R) (base_key_of cfg P k2 ch r t) (e_session_key r)) with (RC4K P (base_key_of cfg P k2 ch r t) (e_session_key r)); [reflexivity|].
  unfold RC4K. change (p_rc4_stream (with_rc4 P R)) with R. rewrite E; [reflexivity|reflexivity].
Qed.

(** Another world, in which the reply whose NTProofStr, session base key, MIC input, MIC and
    encrypted session key are these has the session key [K'], under which everything else has
    the HMAC [F]. *)
Definition other_hmac (P : prims) (F : bytes -> bytes) (k2 proof K' mac mic : bytes) (kex : bool) (k m : bytes) : bytes :=
  if list_eq_dec N.eq_dec k K' then if list_eq_dec N.eq_dec m mac then mic else F m
  else if kex then p_hmac_md5 P k m
  else if list_eq_dec N.eq_dec k k2 then if list_eq_dec N.eq_dec m proof then K' else p_hmac_md5 P k m
  else p_hmac_md5 P k m.
Definition other_rc4 (P : prims) (kek K' enc : bytes) (k : bytes) (n : nat) : bytes :=
  if list_eq_dec N.eq_dec k kek then if Nat.eqb n 16 then xor_bytes K' enc else p_rc4_stream P k n
  else p_rc4_stream P k n.
Lemma other_hmac_same P F k2 proof K' mac mic kex k m : k <> K' -> ~ (k = k2 /\ m = proof) ->
  other_hmac P F k2 proof K' mac mic kex k m = p_hmac_md5 P k m.
Proof.
  intros N1 N2. unfold other_hmac. destruct (list_eq_dec _ k K'); [contradiction|]. destruct kex; [reflexivity|].
  destruct (list_eq_dec _ k k2); [|reflexivity]. destruct (list_eq_dec _ m proof); [|reflexivity]. destruct N2. now split.
Qed.
Lemma other_rc4_same P kek K' enc k n : k <> kek -> other_rc4 P kek K' enc k n = p_rc4_stream P k n.
Proof. intros N. unfold other_rc4. now destruct (list_eq_dec _ k kek). Qed.
Lemma xor_bytes_buffer n a : forall b, is_buffer n a -> is_buffer n b -> is_buffer n (xor_bytes a b).
Proof.
  revert n. induction a as [|x a IH]; intros n [|y b] [L1 B1] [L2 B2]; try (cbn [length] in *; lia).
  - now split.
  - destruct n as [|n]; [discriminate L1|]. injection L1 as L1. injection L2 as L2.
    apply Forall_cons_iff in B1 as [X1 B1]. apply Forall_cons_iff in B2 as [X2 B2].
    destruct (IH n b) as [L B]; [now split|now split|]. cbn [xor_bytes]. split; [cbn [length]; now rewrite L|].
    constructor; [now apply lxor_u8|exact B].
Qed.
Lemma xor_bytes_back a : forall b, length a = length b ->
  map (fun p => N.lxor (fst p) (snd p)) (combine a (xor_bytes a b)) = b.
Proof.
  induction a as [|x a IH]; intros [|y b] L; try discriminate L; [reflexivity|]. cbn [xor_bytes combine map fst snd].
  rewrite <- N.lxor_assoc, N.lxor_nilpotent, N.lxor_0_l. f_equal. apply IH. now injection L.
Qed.
Lemma with_rc4_ok P R : prims_ok P -> (forall k n, length (R k n) = n /\ is_bytes (R k n)) -> prims_ok (with_rc4 P R).
Proof.
  intros HP HR. constructor; try apply HP.
  - intros k n. apply HR.
  - intros k n. apply HR.
Qed.
Lemma temp_long cfg sc t cc l (x : bytes) : length sc = 8%nat -> length x = 16%nat -> sc ++ v2_temp cfg t cc l <> x.
Proof.
  intros S X E. apply (f_equal (@length N)) in E. unfold v2_temp, filetime_bytes in E. rewrite !app_length, S, X in E.
  unfold zeros in E. rewrite !repeat_length in E. cbn [length] in E. lia.
Qed.

(** A world in which the session key is [K'] and the HMAC under it of all but the text that is
    under the MIC is as one likes. *)
Lemma session_world : forall cfg P e level user dom pw target c h g ch r t b K K' F, host_le cfg = true -> 3 <= level ->
  made cfg P e level user dom pw target c -> Forall typed_call (h ++ g) ->
  concludes cfg P c h ch r b K -> response_time ch r = Some t ->
  is_buffer 16 K' -> (forall m, is_buffer 16 (F m)) -> unused_key cfg P user dom pw (h ++ g) K' ->
  NTOWFv1 P pw <> NTOWFv2 P pw user dom ->
  unrepeated cfg P (NTOWFv2 P pw user dom) (h ++ g) ch r t ->
  exists P' r', made cfg P' e level user dom pw target c
    /\ NTOWFv2 P' pw user dom = NTOWFv2 P pw user dom
    /\ transcript cfg P' c (h ++ OpAuthenticate r' :: g) = transcript cfg P c (h ++ OpAuthenticate r :: g)
    /\ concludes cfg P' c h ch r' b K'
    /\ e_client_challenge r' = e_client_challenge r /\ e_clock r' = e_clock r
    /\ same_but_hmac_rc4 P P'
    /\ (forall k m, k <> K' -> ~ (k = NTOWFv2 P pw user dom /\ m = proof_of cfg P (NTOWFv2 P pw user dom) ch r t) ->
         p_hmac_md5 P' k m = p_hmac_md5 P k m)
    /\ (forall k n, k <> base_key_of cfg P (NTOWFv2 P pw user dom) ch r t -> p_rc4_stream P' k n = p_rc4_stream P k n)
    /\ (forall m, m <> v2_mac_input cfg (neg_message level dom) ch (v2_draft cfg P (ntowfv2 cfg P user (ntowfv1 cfg P pw) dom) user dom ch r t) ->
         p_hmac_md5 P' K' m = F m).
Proof.
  intros cfg P e level user dom pw target c h g ch r t b K K' F0 HLE L M Hh C T HK' HF (U1 & U2 & U3) NK (R1 & R2).
  destruct (C36_nt_hashes_lem cfg P pw user dom HLE) as [N1 N2].
  pose proof (made_fresh _ _ _ _ _ _ _ _ _ M) as F. pose proof (made_fields _ _ _ _ _ _ _ _ _ M) as (klm & ws & HK & W & Q).
  destruct (made_level _ _ _ _ _ _ _ _ _ M) as [Lv D].
  assert (HP : prims_ok P) by apply M. assert (He : valid_env e) by apply M.
  assert (Hu : is_string user) by apply M. assert (Hd : is_string dom) by apply M. assert (Hp : is_string pw) by apply M.
  pose proof C as (Hc & Hr & A & S0 & B & SK).
  pose proof (bytes_negotiable _ _ _ _ _ _ _ _ _ _ _ _ M B) as N.
  assert (L5 : 3 <= level <= 5) by (destruct N; lia).
  assert (WN : exists ws', workstation_name P e ws') by (eapply replies_workstation, concludes_replies; eassumption).
  destruct WN as [ws' WN].
  destruct (answer_v2 _ _ _ _ _ _ _ _ _ _ _ _ _ M L5 N WN Hc Hr A) as [AN _].
  destruct (AN _ B) as (RF & t' & T' & TV & V & FT & Eb). rewrite T in T'. injection T' as <-.
  pose proof (concludes_v2 _ _ _ _ _ _ _ _ _ _ _ _ _ _ _ M L T C) as EK.
  rewrite N2 in *. set (k2 := NTOWFv2 P pw user dom) in *.
  set (proof := proof_of cfg P k2 ch r t) in *. set (kek := base_key_of cfg P k2 ch r t) in *.
  change (v2_kek cfg P k2 ch r t) with kek in EK.
  assert (PL : length proof = 16%nat) by apply (ok_hmac_len P HP).
  set (n := neg_message level dom) in *.
  set (d := v2_draft cfg P k2 user dom ch r t) in *.
  set (enc := encrypted P (ch_flags ch) kek (e_session_key r)).
  set (mac := v2_mac_input cfg n ch d). set (mic := p_hmac_md5 P K mac).
  set (kex := key_exchange (ch_flags ch)).
  set (H := other_hmac P F0 k2 proof K' mac mic kex). set (R := other_rc4 P kek K' enc).
  set (P' := with_hmac (with_rc4 P R) H).
  set (r' := mkEntropy (e_client_challenge r) K' (e_clock r)).
  assert (Benc : is_buffer 16 enc) by (apply encrypted_buffer; [exact HP|apply Hr]).
  assert (HP1 : prims_ok (with_rc4 P R)).
  { apply with_rc4_ok; [exact HP|]. intros k m. unfold R, other_rc4. pose proof (ok_rc4_len P HP k m). pose proof (ok_rc4_bytes P HP k m).
    destruct (list_eq_dec _ k kek); [|now split]. destruct (Nat.eqb m 16) eqn:Em; [|now split]. apply Nat.eqb_eq in Em. subst m.
    now apply xor_bytes_buffer. }
  assert (HP' : prims_ok P').
  { apply with_hmac_ok; [exact HP1|]. intros k m. unfold H, other_hmac.
    destruct (list_eq_dec _ k K'); [destruct (list_eq_dec _ m mac); [now apply hmac_buffer|apply HF]|].
    destruct kex; [now apply hmac_buffer|]. destruct (list_eq_dec _ k k2); [|now apply hmac_buffer].
    destruct (list_eq_dec _ m proof); [exact HK'|now apply hmac_buffer]. }
  assert (Hr' : is_entropy r') by (split; [apply Hr|exact HK']).
  assert (HS : forall k m, k <> K' -> ~ (k = k2 /\ m = proof) -> p_hmac_md5 P' k m = p_hmac_md5 P k m)
    by (intros; now apply other_hmac_same).
  assert (K2' : NTOWFv2 P' pw user dom = k2).
  { apply HS; [exact U1|]. intros [X _]. now apply NK. }
  destruct (C36_nt_hashes_lem cfg P' pw user dom HLE) as [N1' N2'].
  assert (M' : made cfg P' e level user dom pw target c).
  { split; [exact HP'|]. do 4 (split; [assumption|]). rewrite Q. unfold new_with_domain, compute_ntlm_hashes.
    change (lmowfv1 P') with (lmowfv1 P). rewrite HK. cbn [obind].
    change (get_workstation_name P') with (get_workstation_name P). rewrite W. cbn [obind].
    rewrite N2', K2', N1', N1. reflexivity. }
  assert (CK2 : cl_ntlmv2_hash c = k2) by (rewrite Q; reflexivity).
  assert (RA : forall ch0 r0, answered (h ++ g) ch0 r0 -> reply cfg P' c (neg_message (cl_level c) (cl_domain c)) ch0 r0
    = reply cfg P c (neg_message (cl_level c) (cl_domain c)) ch0 r0).
  { intros ch0 r0 A0.
    assert (TC : valid_challenge ch0 /\ is_entropy r0).
    { destruct A0 as (h1 & h2 & X0 & A0). rewrite X0 in Hh. apply Forall_app in Hh as [X1 X2]. apply Forall_inv in X2. split; [now apply accepts_typed in A0|exact X2]. }
    destruct TC as [Hc0 Hr0]. assert (SC0 : length (ch_server_challenge ch0) = 8%nat) by apply Hc0.
    transitivity (reply cfg (with_rc4 P R) c (neg_message (cl_level c) (cl_domain c)) ch0 r0).
    - unfold P'. rewrite <- (rekey_id c) at 1. apply reply_agree; try assumption.
      + rewrite Q; exact Hu.
      + rewrite D. exact Hd.
      + apply neg_message_valid. rewrite D. exact Hd.
      + rewrite Q. cbn [cl_nt_hash]. now apply ntowfv1_buffer.
      + rewrite Q. cbn [cl_lm_hash]. eapply lmowfv1_buffer; eassumption.
      + rewrite Lv. lia.
      + split; [rewrite Lv; lia|]. intros _ t0 T0. destruct (R2 _ _ _ A0 T0) as (Z1 & Z2 & Z3). rewrite CK2.
        change (proof_of cfg (with_rc4 P R) k2 ch0 r0 t0) with (proof_of cfg P k2 ch0 r0 t0).
        change (session_key_of cfg (with_rc4 P R) k2 ch0 r0 t0) with (session_key_of cfg P k2 ch0 r0 t0).
        change (p_hmac_md5 (with_rc4 P R)) with (p_hmac_md5 P).
        split.
        * intros m Hm. apply other_hmac_same; [exact U2|]. intros [_ X]. destruct Hm as [ -> | [ -> | -> ]]; [now apply Z1| |now apply Z2].
          now apply temp_long in X.
        * intros m Hm. apply other_hmac_same; [now apply (U3 _ _ _ A0)|]. intros [_ X]. subst m. unfold len in Hm. lia.
    - apply reply_rc4; [rewrite Lv; exact L5|exact Hc0|exact Hr0|]. intros t0 T0. rewrite CK2.
      apply other_rc4_same. now apply (R2 _ _ _ A0 T0). }
  destruct (calls_agree cfg P P' c h F) as [CA1 CA2].
  { intros ch0 r0 A0. apply RA. destruct A0 as (h1 & h2 & -> & A0). exists h1, (h2 ++ g). split; [now rewrite <- app_assoc|exact A0]. }
  assert (PR' : proof_of cfg P' k2 ch r' t = proof).
  { apply HS; [exact U2|]. intros [_ X]. revert X. apply temp_long; [apply Hc|exact PL]. }
  assert (KEK' : v2_kek cfg P' k2 ch r' t = if kex then kek else K').
  { change (v2_kek cfg P' k2 ch r' t) with (p_hmac_md5 P' k2 (proof_of cfg P' k2 ch r' t)). rewrite PR'.
    change (p_hmac_md5 P' k2 proof) with (H k2 proof). unfold H, other_hmac. destruct (list_eq_dec _ k2 K'); [contradiction|].
    destruct kex; [reflexivity|]. destruct (list_eq_dec _ k2 k2) as [_|X]; [|now destruct X].
    destruct (list_eq_dec _ proof proof) as [_|X]; [reflexivity|now destruct X]. }
  assert (EX' : exported (ch_flags ch) (v2_kek cfg P' k2 ch r' t) (e_session_key r') = K').
  { rewrite KEK'. unfold exported. fold kex. destruct kex; reflexivity. }
  assert (ENC' : encrypted P' (ch_flags ch) (v2_kek cfg P' k2 ch r' t) (e_session_key r') = enc).
  { rewrite KEK'. unfold enc, encrypted. fold kex. destruct kex eqn:Ek; [|reflexivity].
    unfold RC4K at 1. change (e_session_key r') with K'. destruct HK' as [LK BK]. rewrite LK.
    change (p_rc4_stream P' kek 16) with (R kek 16%nat). unfold R, other_rc4.
    destruct (list_eq_dec _ kek kek) as [_|X]; [|now destruct X]. change (Nat.eqb 16 16) with true. cbv iota.
    rewrite xor_bytes_back; [|now rewrite LK, (proj1 Benc)]. unfold enc, encrypted. fold kex. now rewrite Ek. }
  assert (LM' : p_hmac_md5 P' k2 (ch_server_challenge ch ++ e_client_challenge r') = p_hmac_md5 P k2 (ch_server_challenge ch ++ e_client_challenge r)).
  { apply HS; [exact U2|]. intros [_ X]. now apply R1. }
  assert (D' : v2_draft cfg P' k2 user dom ch r' t = with_exported_key d (Some K')).
  { unfold v2_draft. cbv zeta. rewrite EX', ENC', LM'. reflexivity. }
  assert (MAC' : v2_mac_input cfg n ch (v2_draft cfg P' k2 user dom ch r' t) = mac) by (rewrite D'; reflexivity).
  assert (MIC' : p_hmac_md5 P' (exported (ch_flags ch) (v2_kek cfg P' k2 ch r' t) (e_session_key r')) (v2_mac_input cfg n ch (v2_draft cfg P' k2 user dom ch r' t)) = mic).
  { rewrite EX', MAC'. change (H K' mac = mic). unfold H, other_hmac. destruct (list_eq_dec _ K' K') as [_|X]; [|now destruct X].
    destruct (list_eq_dec _ mac mac) as [_|X]; [reflexivity|now destruct X]. }
  assert (MSG : authenticate_bytes cfg (v2_message cfg P' k2 user dom ws' n ch r' t) = b).
  { rewrite Eb. unfold v2_message. cbv zeta. rewrite MIC', D'. fold d.
    change (v2_kek cfg P k2 ch r t) with kek. rewrite <- EK. reflexivity. }
  assert (RT' : response_time ch r' = Some t) by exact T.
  assert (WN' : workstation_name P' e ws') by exact WN.
  destruct (answer_v2 _ _ _ _ _ _ _ _ _ _ _ _ _ M' L5 N WN' Hc Hr' A) as [AN' AF'].
  destruct AF' as [b' B']. { destruct RF as (X1 & X2 & X3 & X4). repeat split; try assumption; try (intros X; now apply X4); apply X4, L. }
  destruct (AN' _ B') as (_ & t2 & T2 & _ & _ & _ & Eb'). rewrite RT' in T2. injection T2 as <-.
  rewrite N2', K2' in Eb'. assert (Y : b' = b) by (rewrite Eb'; exact MSG). clear Eb'. subst b'.
  assert (S0' : session_key (run cfg P' c h) = None) by (rewrite CA2; exact S0).
  assert (N' : negotiable (cl_level c) (cl_domain c)) by (rewrite Lv, D; exact N).
  destruct (proj1 (after_reply _ _ _ _ _ _ _ F N' A B') S0') as (a & E1 & E2).
  pose proof (reply_exported _ _ _ _ _ _ _ E1) as NE. destruct (a_exported_key a) as [K0|]; [|now destruct NE].
  assert (C' : concludes cfg P' c h ch r' b K0) by (split; [exact Hc|]; repeat (split; [assumption|]); exact E2).
  pose proof (concludes_v2 _ _ _ _ _ _ _ _ _ _ _ _ _ _ _ M' L RT' C') as EK'. rewrite N2', K2', EX' in EK'. subst K0.
  exists P', r'. split; [exact M'|]. split; [exact K2'|]. split; [apply afterwards_agree; try assumption; now rewrite B|]. split; [exact C'|].
  split; [reflexivity|]. split; [reflexivity|]. split; [repeat split|]. split; [exact HS|].
  split; [intros k m X; now apply other_rc4_same|].
  intros m X. change (H K' m = F0 m). unfold H, other_hmac. destruct (list_eq_dec _ K' K') as [_|Y]; [|now destruct Y].
  destruct (list_eq_dec _ m mac) as [Y|_]; [now destruct X|reflexivity].
Qed.

(** ** C121 *)
(** The messages of a client of levels 3 to 5 do not tell the session key it agreed to: for
    every 16 bytes that are not another key of it, in some world the same client sent the same
    over its whole life, before the reply and after it, and has these 16 bytes as session key.
    The world differs at the points one has to know for the session key: HMAC-MD5 under the
    other session key and at NTProofStr under the NTLMv2 key, RC4 under the session base key.
    The client drew another session key at most. *)
Lemma C121_session_key_lem : forall cfg P e level user dom pw target c h g ch r t b K K', host_le cfg = true -> 3 <= level ->
  made cfg P e level user dom pw target c -> Forall typed_call (h ++ g) ->
  concludes cfg P c h ch r b K -> response_time ch r = Some t ->
  is_buffer 16 K' -> unused_key cfg P user dom pw (h ++ g) K' ->
  NTOWFv1 P pw <> NTOWFv2 P pw user dom ->
  unrepeated cfg P (NTOWFv2 P pw user dom) (h ++ g) ch r t ->
  exists P' r', made cfg P' e level user dom pw target c
    /\ NTOWFv2 P' pw user dom = NTOWFv2 P pw user dom
    /\ transcript cfg P' c (h ++ OpAuthenticate r' :: g) = transcript cfg P c (h ++ OpAuthenticate r :: g)
    /\ concludes cfg P' c h ch r' b K'
    /\ e_client_challenge r' = e_client_challenge r /\ e_clock r' = e_clock r
    /\ same_but_hmac_rc4 P P'
    /\ (forall k m, k <> K' -> ~ (k = NTOWFv2 P pw user dom /\ m = proof_of cfg P (NTOWFv2 P pw user dom) ch r t) ->
         p_hmac_md5 P' k m = p_hmac_md5 P k m)
    /\ (forall k n, k <> base_key_of cfg P (NTOWFv2 P pw user dom) ch r t -> p_rc4_stream P' k n = p_rc4_stream P k n).
Proof.
  intros cfg P e level user dom pw target c h g ch r t b K K' HLE L M Hh C T HK' U NK R.
  assert (HF : forall m, is_buffer 16 (p_hmac_md5 P K' m)) by (intros m; apply hmac_buffer, M).
  destruct (session_world cfg P e level user dom pw target c h g ch r t b K K' _ HLE L M Hh C T HK' HF U NK R)
    as (P' & r' & H1 & H2 & H3 & H4 & H5 & H6 & H7 & H8 & H9 & _).
  exists P', r'. repeat (split; [assumption|]). exact H9.
Qed.

Lemma old_message_same P P' level knt klm user dom ws ch r :
  p_md4 P' = p_md4 P -> p_md5 P' = p_md5 P -> p_des P' = p_des P ->
  old_base_key P' level knt klm ch r = old_base_key P level knt klm ch r ->
  p_rc4_stream P' (old_base_key P level knt klm ch r) (length (e_session_key r)) = p_rc4_stream P (old_base_key P level knt klm ch r) (length (e_session_key r)) ->
  v1_message P' level knt klm user dom ws ch r = v1_message P level knt klm user dom ws ch r.
Proof.
  intros E1 E2 E3 EK ER. destruct P as [a b H d R u], P' as [a' b' H' d' R' u']. cbn [p_md4 p_md5 p_des] in *. subst a' b' d'.
  unfold v1_message. cbv zeta.
  change (v1_kek (mkPrims a b H' d R' u') knt (ch_server_challenge ch) (v1_lm (mkPrims a b H' d R' u') level knt klm ch r))
    with (old_base_key (mkPrims a b H' d R' u') level knt klm ch r).
  change (v1_kek (mkPrims a b H d R u) knt (ch_server_challenge ch) (v1_lm (mkPrims a b H d R u) level knt klm ch r))
    with (old_base_key (mkPrims a b H d R u) level knt klm ch r).
  rewrite EK. unfold encrypted, RC4K. rewrite ER. reflexivity.
Qed.
Lemma changed_at_other P k m v k' m' : ~ (k' = k /\ m' = m) -> changed_at P k m v k' m' = p_hmac_md5 P k' m'.
Proof.
  intros N. unfold changed_at. destruct (list_eq_dec _ k' k); [|reflexivity]. destruct (list_eq_dec _ m' m); [|reflexivity].
  destruct N. now split.
Qed.
Lemma changed_at_point P k m v : changed_at P k m v k m = v.
Proof.
  unfold changed_at. destruct (list_eq_dec _ k k) as [_|X]; [|now destruct X]. destruct (list_eq_dec _ m m) as [_|X]; [reflexivity|now destruct X].
Qed.

(** Nor do the messages of a client of levels 0 to 2: every 16 bytes may be the key.  The
    world differs in RC4 under the key that encrypted the session key, or, if none was sent,
    in HMAC-MD5 where it gave the session key. *)
Lemma C121_session_key_old_lem : forall cfg P e level user dom pw target c h g ch r b K K' lm, host_le cfg = true -> level <= 2 ->
  made cfg P e level user dom pw target c -> lmowfv1 P pw = Val lm -> Forall typed_call (h ++ g) ->
  concludes cfg P c h ch r b K ->
  is_buffer 16 K' -> p_md4 P (NTOWFv1 P pw) <> NTOWFv1 P pw ->
  (forall ch' r', answered (h ++ g) ch' r' ->
     old_base_key P level (NTOWFv1 P pw) lm ch' r' <> old_base_key P level (NTOWFv1 P pw) lm ch r) ->
  exists P' r', made cfg P' e level user dom pw target c
    /\ transcript cfg P' c (h ++ OpAuthenticate r' :: g) = transcript cfg P c (h ++ OpAuthenticate r :: g)
    /\ concludes cfg P' c h ch r' b K'
    /\ e_client_challenge r' = e_client_challenge r /\ e_clock r' = e_clock r
    /\ same_but_hmac_rc4 P P'
    /\ (if key_exchange (ch_flags ch)
        then p_hmac_md5 P' = p_hmac_md5 P
             /\ forall k n, k <> old_base_key P level (NTOWFv1 P pw) lm ch r -> p_rc4_stream P' k n = p_rc4_stream P k n
        else p_rc4_stream P' = p_rc4_stream P
             /\ forall k m, ~ (k = p_md4 P (NTOWFv1 P pw) /\ m = old_key_message P level (NTOWFv1 P pw) lm ch r) ->
                  p_hmac_md5 P' k m = p_hmac_md5 P k m).
Proof.
  intros cfg P e level user dom pw target c h g ch r b K K' lm HLE L M HL Hh C HK' NK U.
  destruct (C36_nt_hashes_lem cfg P pw user dom HLE) as [N1 N2].
  pose proof (made_fresh _ _ _ _ _ _ _ _ _ M) as F. pose proof (made_fields _ _ _ _ _ _ _ _ _ M) as (klm & ws & HK & W & Q).
  assert (klm = lm) by (rewrite HL in HK; apply val_inj in HK; congruence). subst klm.
  destruct (made_level _ _ _ _ _ _ _ _ _ M) as [Lv D].
  assert (HP : prims_ok P) by apply M.
  assert (He : valid_env e) by apply M.
  assert (Hu : is_string user) by apply M. assert (Hd : is_string dom) by apply M. assert (Hp : is_string pw) by apply M.
  pose proof C as (Hc & Hr & A & S0 & B & SK).
  pose proof (bytes_negotiable _ _ _ _ _ _ _ _ _ _ _ _ M B) as N.
  pose proof (made_workstation_exists _ _ _ _ _ _ _ _ _ M) as WN. set (ws' := cl_workstation c) in *.
  destruct (answer_v1 _ _ _ _ _ _ _ _ _ _ _ _ _ _ M L N WN HL Hc Hr A) as [V AN].
  pose proof (concludes_v1 _ _ _ _ _ _ _ _ _ _ _ _ _ _ _ M L HL C) as EK.
  rewrite N1 in V, AN, EK. set (nt := NTOWFv1 P pw) in *.
  fold (old_base_key P level nt lm ch r) in EK.
  change (v1_kek P nt (ch_server_challenge ch) (v1_lm P level nt lm ch r)) with (old_base_key P level nt lm ch r) in EK.
  set (kek := old_base_key P level nt lm ch r) in *. set (kex := key_exchange (ch_flags ch)).
  set (enc := encrypted P (ch_flags ch) kek (e_session_key r)).
  set (sbk := v1_session_base_key P nt).
  set (msg := old_key_message P level nt lm ch r).
  set (H := if kex then p_hmac_md5 P else changed_at P sbk msg K').
  set (R := if kex then other_rc4 P kek K' enc else p_rc4_stream P).
  set (P' := with_hmac (with_rc4 P R) H).
  set (r' := mkEntropy (e_client_challenge r) K' (e_clock r)).
  assert (Benc : is_buffer 16 enc) by (apply encrypted_buffer; [exact HP|apply Hr]).
  assert (HP1 : prims_ok (with_rc4 P R)).
  { apply with_rc4_ok; [exact HP|]. intros k m. unfold R, other_rc4. pose proof (ok_rc4_len P HP k m). pose proof (ok_rc4_bytes P HP k m).
    destruct kex; [|now split].
    destruct (list_eq_dec _ k kek); [|now split]. destruct (Nat.eqb m 16) eqn:Em; [|now split]. apply Nat.eqb_eq in Em. subst m.
    now apply xor_bytes_buffer. }
  assert (HP' : prims_ok P').
  { apply with_hmac_ok; [exact HP1|]. intros k m. unfold H, changed_at. destruct kex; [now apply hmac_buffer|].
    destruct (list_eq_dec _ k sbk); [|now apply hmac_buffer]. destruct (list_eq_dec _ m msg); [exact HK'|now apply hmac_buffer]. }
  assert (Hr' : is_entropy r') by (split; [apply Hr|exact HK']).
  assert (HS : forall k m, ~ (k = sbk /\ m = msg) -> p_hmac_md5 P' k m = p_hmac_md5 P k m).
  { intros k m X. change (H k m = p_hmac_md5 P k m). unfold H. destruct kex; [reflexivity|]. now apply changed_at_other. }
  assert (K2' : NTOWFv2 P' pw user dom = NTOWFv2 P pw user dom).
  { apply HS. intros [X _]. apply NK. symmetry. exact X. }
  destruct (C36_nt_hashes_lem cfg P' pw user dom HLE) as [N1' N2'].
  assert (M' : made cfg P' e level user dom pw target c).
  { split; [exact HP'|]. do 4 (split; [assumption|]). rewrite Q. unfold new_with_domain, compute_ntlm_hashes.
    change (lmowfv1 P') with (lmowfv1 P). rewrite HK. cbn [obind].
    change (get_workstation_name P') with (get_workstation_name P). rewrite W. cbn [obind].
    rewrite N2', K2', N2, N1', N1. reflexivity. }
  assert (Bn : is_buffer 16 nt) by (unfold nt; rewrite <- (proj1 (C36_nt_hashes_lem cfg P pw user dom HLE)); now apply ntowfv1_buffer).
  assert (Bl : is_buffer 16 lm) by (eapply lmowfv1_buffer; eassumption).
  assert (RA : forall ch0 r0, answered (h ++ g) ch0 r0 -> reply cfg P' c (neg_message (cl_level c) (cl_domain c)) ch0 r0
    = reply cfg P c (neg_message (cl_level c) (cl_domain c)) ch0 r0).
  { intros ch0 r0 A0. pose proof (U _ _ A0) as Z.
    assert (TC : valid_challenge ch0 /\ is_entropy r0).
    { destruct A0 as (h1 & h2 & X0 & A0). rewrite X0 in Hh. apply Forall_app in Hh as [X1 X2]. apply Forall_inv in X2. split; [now apply accepts_typed in A0|exact X2]. }
    destruct TC as [Hc0 Hr0].
    assert (C1 : cl_nt_hash c = nt) by (rewrite Q; exact N1). assert (C2 : cl_lm_hash c = lm) by (rewrite Q; reflexivity).
    assert (C3 : cl_version c = None) by (rewrite Q; reflexivity).
    rewrite !reply_v1; try assumption; try (rewrite Lv; exact L); try (rewrite C1; exact Bn); try (rewrite C2; exact Bl); try apply Hc0.
    f_equal. rewrite Lv, C1, C2. apply old_message_same; try reflexivity.
    - apply HS. intros [_ X]. apply Z. unfold kek, old_base_key. exact (f_equal (p_hmac_md5 P sbk) X).
    - change (R (old_base_key P level nt lm ch0 r0) (length (e_session_key r0)) = p_rc4_stream P (old_base_key P level nt lm ch0 r0) (length (e_session_key r0))).
      unfold R. destruct kex; [|reflexivity]. now apply other_rc4_same. }
  destruct (calls_agree cfg P P' c h F) as [CA1 CA2].
  { intros ch0 r0 A0. apply RA. destruct A0 as (h1 & h2 & -> & A0). exists h1, (h2 ++ g). split; [now rewrite <- app_assoc|exact A0]. }
  assert (KEK' : old_base_key P' level nt lm ch r' = if kex then kek else K').
  { change (old_base_key P' level nt lm ch r') with (H sbk msg). unfold H. destruct kex; [reflexivity|]. apply changed_at_point. }
  assert (EX' : exported (ch_flags ch) (old_base_key P' level nt lm ch r') (e_session_key r') = K').
  { rewrite KEK'. unfold exported. fold kex. destruct kex; reflexivity. }
  assert (ENC' : encrypted P' (ch_flags ch) (old_base_key P' level nt lm ch r') (e_session_key r') = enc).
  { rewrite KEK'. unfold enc, encrypted. fold kex. destruct kex eqn:Ek; [|reflexivity].
    unfold RC4K at 1. change (e_session_key r') with K'. destruct HK' as [LK BK]. rewrite LK.
    change (p_rc4_stream P' kek 16) with (R kek 16%nat). unfold R, other_rc4.
    destruct (list_eq_dec _ kek kek) as [_|X]; [|now destruct X]. change (Nat.eqb 16 16) with true. cbv iota.
    rewrite xor_bytes_back; [|now rewrite LK, (proj1 Benc)]. unfold enc, encrypted. fold kex. now rewrite Ek. }
  assert (MSG : authenticate_bytes cfg (v1_message P' level nt lm user dom ws' ch r') = authenticate_bytes cfg (v1_message P level nt lm user dom ws' ch r)
    /\ authenticate_fields cfg (v1_message P' level nt lm user dom ws' ch r') = authenticate_fields cfg (v1_message P level nt lm user dom ws' ch r)).
  { assert (X : v1_message P' level nt lm user dom ws' ch r' = with_exported_key (v1_message P level nt lm user dom ws' ch r) (Some K')).
    { unfold v1_message. cbv zeta.
      change (v1_kek P' nt (ch_server_challenge ch) (v1_lm P' level nt lm ch r')) with (old_base_key P' level nt lm ch r').
      rewrite EX', ENC'. reflexivity. }
    rewrite X. split; reflexivity. }
  destruct MSG as [MSG FLD].
  assert (WN' : workstation_name P' e ws') by exact WN.
  assert (HL' : lmowfv1 P' pw = Val lm) by exact HL.
  assert (B' : answer cfg P' c h (OpAuthenticate r') = OutBytes b).
  { destruct (answer_v1 _ _ _ _ _ _ _ _ _ _ _ _ _ _ M' L N WN' HL' Hc Hr' A) as [_ AN']. rewrite AN', N1'.
    change (NTOWFv1 P' pw) with nt. rewrite MSG, FLD, <- AN. exact B. }
  assert (S0' : session_key (run cfg P' c h) = None) by (rewrite CA2; exact S0).
  assert (N' : negotiable (cl_level c) (cl_domain c)) by (rewrite Lv, D; exact N).
  destruct (proj1 (after_reply _ _ _ _ _ _ _ F N' A B') S0') as (a & E1 & E2).
  pose proof (reply_exported _ _ _ _ _ _ _ E1) as NE. destruct (a_exported_key a) as [K0|]; [|now destruct NE].
  assert (C' : concludes cfg P' c h ch r' b K0) by (split; [exact Hc|]; repeat (split; [assumption|]); exact E2).
  pose proof (concludes_v1 _ _ _ _ _ _ _ _ _ _ _ _ _ _ _ M' L HL' C') as EK'. rewrite N1' in EK'.
  change (K0 = exported (ch_flags ch) (old_base_key P' level nt lm ch r') (e_session_key r')) in EK'. rewrite EX' in EK'. subst K0.
  exists P', r'. split; [exact M'|]. split; [apply afterwards_agree; try assumption; now rewrite B|]. split; [exact C'|].
  split; [reflexivity|]. split; [reflexivity|]. split; [repeat split|]. fold kex.
  change (p_hmac_md5 P') with H. change (p_rc4_stream P') with R. unfold H, R. destruct kex.
  - split; [reflexivity|]. intros k m X. now apply other_rc4_same.
  - split; [reflexivity|]. intros k m X. now apply changed_at_other.
Qed.

Lemma one_answered ch r : answered one_reply ch r -> ch = sealed_challenge /\ r = sample_entropy.
Proof.
  intros A. unfold one_reply in A. change (answered ((((([] ++ [OpNegociate]) ++ [OpRecvChallenge sealed_challenge]) ++ [OpAuthenticate sample_entropy])
    ++ [OpNegociate]) ++ [OpRecvChallenge other_challenge]) ch r) in A.
  rewrite !answered_snoc, !accepts_snoc in A.
  assert (N : ~ answered [] ch r). { intros ([|? ?] & ? & E & _); discriminate E. }
  pose proof (not_accepts_nil ch).
  decompose [or and] A; clear A; try contradiction; try discriminate;
    repeat match goal with
      | H : OpAuthenticate _ = OpAuthenticate _ |- _ => injection H as H
      | H : OpRecvChallenge _ = OpRecvChallenge _ |- _ => injection H as H
      end; subst; auto; try (split; congruence).
Qed.
Lemma none_answered ch r : ~ answered no_reply ch r.
Proof.
  intros A. change (answered (([] ++ [OpNegociate]) ++ [OpRecvChallenge sealed_challenge]) ch r) in A. rewrite !answered_snoc in A.
  assert (N : ~ answered [] ch r). { intros ([|? ?] & ? & E & _); discriminate E. }
  decompose [or and] A; clear A; try contradiction; try discriminate.
Qed.
(** A key that was exchanged, and one that was not. *)
Example C121_ex_lem :
  (exists target, made cfg_debug mixing_prims host_env 3 str_User str_Domain str_Password target (mixing_client 3 str_Password))
  /\ NTOWFv1 mixing_prims str_Password <> NTOWFv2 mixing_prims str_Password str_User str_Domain
  /\ (forall h ch, (h, ch) = (no_reply, sealed_challenge) \/ (h, ch) = (one_reply, other_challenge) ->
       Forall typed_call h
       /\ concludes cfg_debug mixing_prims (mixing_client 3 str_Password) h ch sample_entropy (mixed_reply h) (mixed_key h)
       /\ mixed_key h <> repeat 7 16 /\ is_buffer 16 (repeat 7 16)
       /\ unused_key cfg_debug mixing_prims str_User str_Domain str_Password h (repeat 7 16)
       /\ exists t, response_time ch sample_entropy = Some t
            /\ unrepeated cfg_debug mixing_prims (NTOWFv2 mixing_prims str_Password str_User str_Domain) h ch sample_entropy t)
  /\ key_exchange (ch_flags sealed_challenge) = true /\ key_exchange (ch_flags other_challenge) = false
  /\ mixed_key no_reply = e_session_key sample_entropy
  /\ (exists ch r, answered one_reply ch r).
Proof.
  split. { exists str_target. split; [exact mixing_ok|]. repeat (split; [closed_valid|]). vm_compute. reflexivity. }
  split. { vm_compute. discriminate. }
  split.
  { intros h ch [E|E]; injection E as -> ->.
    - split. { repeat constructor. }
      split. { split; [exact sealed_valid|]. split; [exact sample_entropy_ok|]. split. { exists [], [], []. repeat constructor. }
        split; [vm_compute; reflexivity|]. split; vm_compute; reflexivity. }
      split; [vm_compute; discriminate|]. split; [closed_valid|].
      split. { split; [vm_compute; discriminate|]. split; [vm_compute; discriminate|]. intros ch r t A. now apply none_answered in A. }
      eexists. split; [vm_compute; reflexivity|]. split; [vm_compute; discriminate|]. intros ch r t A. now apply none_answered in A.
    - split. { repeat constructor; try exact I; try exact sealed_valid; try exact sample_entropy_ok; closed_valid. }
      split. { split; [closed_valid|]. split; [exact sample_entropy_ok|].
        split. { exists [OpNegociate; OpRecvChallenge sealed_challenge; OpAuthenticate sample_entropy], [], []. repeat constructor. }
        split; [vm_compute; reflexivity|]. split; vm_compute; reflexivity. }
      split; [vm_compute; discriminate|]. split; [closed_valid|].
      split. { split; [vm_compute; discriminate|]. split; [vm_compute; discriminate|]. intros ch r t A E.
        apply one_answered in A as [-> ->]. vm_compute in E. injection E as <-. vm_compute. discriminate. }
      eexists. split; [vm_compute; reflexivity|]. split; [vm_compute; discriminate|]. intros ch r t A E.
      apply one_answered in A as [-> ->]. vm_compute in E. injection E as <-. split; [|split]; vm_compute; discriminate. }
  split; [reflexivity|]. split; [reflexivity|]. split; [vm_compute; reflexivity|].
  exists sealed_challenge, sample_entropy. exists [OpNegociate; OpRecvChallenge sealed_challenge], [OpNegociate; OpRecvChallenge other_challenge].
  split; [reflexivity|]. exists [], [], []. repeat constructor.
Qed.
Lemma moving_ok : prims_ok moving_prims.
Proof.
  constructor; intros; try solve [apply fit_length|apply fit_bytes].
  - now apply (ok_upper_ascii _ mixing_ok).
  - now apply (ok_upper_string _ mixing_ok).
Qed.
(** The same at level 1. *)
Example C121_ex_old_lem :
  (exists target, made cfg_debug moving_prims host_env 1 str_User str_Domain str_Password target moving_client)
  /\ p_md4 moving_prims (NTOWFv1 moving_prims str_Password) <> NTOWFv1 moving_prims str_Password
  /\ (exists lm, lmowfv1 moving_prims str_Password = Val lm
      /\ forall h ch, (h, ch) = (no_reply, sealed_challenge) \/ (h, ch) = (one_reply, other_challenge) ->
       Forall typed_call h
       /\ concludes cfg_debug moving_prims moving_client h ch sample_entropy (moved_reply h) (moved_key h)
       /\ moved_key h <> repeat 7 16 /\ is_buffer 16 (repeat 7 16)
       /\ forall ch' r', answered h ch' r' ->
            old_base_key moving_prims 1 (NTOWFv1 moving_prims str_Password) lm ch' r'
            <> old_base_key moving_prims 1 (NTOWFv1 moving_prims str_Password) lm ch sample_entropy)
  /\ key_exchange (ch_flags sealed_challenge) = true /\ key_exchange (ch_flags other_challenge) = false
  /\ moved_key no_reply = e_session_key sample_entropy.
Proof.
  split. { exists str_target. split; [exact moving_ok|]. repeat (split; [closed_valid|]). vm_compute. reflexivity. }
  split. { vm_compute. discriminate. }
  split.
  { eexists. split; [vm_compute; reflexivity|]. intros h ch [E|E]; injection E as -> ->.
    - split. { repeat constructor. }
      split. { split; [exact sealed_valid|]. split; [exact sample_entropy_ok|]. split. { exists [], [], []. repeat constructor. }
        split; [vm_compute; reflexivity|]. split; vm_compute; reflexivity. }
      split; [vm_compute; discriminate|]. split; [closed_valid|]. intros ch r A. now apply none_answered in A.
    - split. { repeat constructor; try exact I; try exact sealed_valid; try exact sample_entropy_ok; closed_valid. }
      split. { split; [closed_valid|]. split; [exact sample_entropy_ok|].
        split. { exists [OpNegociate; OpRecvChallenge sealed_challenge; OpAuthenticate sample_entropy], [], []. repeat constructor. }
        split; [vm_compute; reflexivity|]. split; vm_compute; reflexivity. }
      split; [vm_compute; discriminate|]. split; [closed_valid|]. intros ch r A. apply one_answered in A as [-> ->]. vm_compute. discriminate. }
  split; [reflexivity|]. split; [reflexivity|]. vm_compute; reflexivity.
Qed.
