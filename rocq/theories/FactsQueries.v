(** What the calls of a client reveal about its keys. *)
From Coq Require Import ZifyBool ZifyNat ZifyN.
From Verif Require Import Base Nom Unicode Wire Structures Prims Messages Crypto Client Spec SpecBuild SpecCrypto SpecClient Lib Encode Decode RoundTrip Parse Samples FactsEncode FactsDecode FactsBuild DesKey RealPrims FactsCrypto SamplesClient History Reply FactsClient SpecTrace FactsTrace SamplesLabour SamplesLmv2 SamplesTiming FactsLmv2 FactsTiming SamplesPlaces FactsPlaces SpecQueries SamplesQueries.

Ltac Zify.zify_post_hook ::= Z.div_mod_to_equations.

Lemma mic_agree cfg P H key a n ch : valid_negotiate n -> valid_challenge ch -> a_exported_key a = Some key ->
  valid_authenticate (with_mic a (buf_default 16)) ->
  (forall m, 16 < len m -> H key m = p_hmac_md5 P key m) ->
  compute_mic cfg (with_hmac P H) a n ch = compute_mic cfg P a n ch.
Proof.
  intros Hn Hc K Ha E. unfold compute_mic. rewrite K.
  rewrite negotiate_ser_spec by exact Hn. destruct (fitsb _); [|reflexivity]. cbn [obind].
  rewrite challenge_ser_spec by exact Hc. destruct (fitsb _); [|reflexivity]. cbn [obind].
  rewrite authenticate_ser_spec by exact Ha. destruct (fitsb _); [|reflexivity]. cbn [obind].
  change (p_hmac_md5 (with_hmac P H)) with H. rewrite E; [reflexivity|].
  rewrite app_nil_l. assert (16 <= len (negotiate_bytes n)).
  { unfold negotiate_bytes, len. rewrite !app_length, !le32_length. cbn [length NTLMSSP]. lia. }
  assert (8 <= len (challenge_bytes cfg ch)).
  { unfold challenge_bytes, len. rewrite !app_length. cbn [length NTLMSSP]. lia. }
  unfold len in *. rewrite !app_length. lia.
Qed.

(** A client with other hashes. *)
Definition rekey (lm nt k : bytes) (c : client) : client :=
  mkClient (cl_state c) (cl_username c) lm nt k (cl_domain c) (cl_workstation c) (cl_target c) (cl_buffer c) (cl_version c) (cl_level c).
(** [H] gives a reply, under [k'], what HMAC-MD5 gives under [k2]. *)
Definition serves (cfg : config) (P : prims) (H : bytes -> bytes -> bytes) (level : N) (nt k2 k' : bytes) (ch : challenge) (r : entropy) : Prop :=
  (level <= 2 -> forall x, length x = 8%nat -> H (p_md4 P nt) (ch_server_challenge ch ++ x) = p_hmac_md5 P (p_md4 P nt) (ch_server_challenge ch ++ x))
  /\ (3 <= level <= 5 -> forall t, response_time ch r = Some t ->
       (forall m, m = ch_server_challenge ch ++ e_client_challenge r
                    \/ m = ch_server_challenge ch ++ v2_temp cfg t (e_client_challenge r) (ch_target_infos ch)
                    \/ m = proof_of cfg P k2 ch r t -> H k' m = p_hmac_md5 P k2 m)
       /\ (forall m, 16 < len m -> H (session_key_of cfg P k2 ch r t) m = p_hmac_md5 P (session_key_of cfg P k2 ch r t) m)).
(** A reply asks for no other HMAC. *)
Lemma reply_agree cfg P H lm' nt' k' c n ch r : prims_ok P -> is_string (cl_username c) -> is_string (cl_domain c) ->
  valid_negotiate n -> valid_challenge ch -> is_entropy r ->
  is_buffer 16 (cl_nt_hash c) -> is_buffer 16 (cl_lm_hash c) ->
  (cl_level c <= 2 -> lm' = cl_lm_hash c /\ nt' = cl_nt_hash c) ->
  serves cfg P H (cl_level c) (cl_nt_hash c) (cl_ntlmv2_hash c) k' ch r ->
  reply cfg (with_hmac P H) (rekey lm' nt' k' c) n ch r = reply cfg P c n ch r.
Proof.
  intros HP Hu Hd Hn Hc Hr B1 B2 EQ [E1 E2]. unfold reply. change (finish_authenticate (rekey lm' nt' k' c)) with (finish_authenticate c). f_equal.
  unfold build_authenticate. change (cl_level (with_state c _)) with (cl_level c). change (cl_level (with_state (rekey lm' nt' k' c) _)) with (cl_level c).
  assert (V1 : cl_level c <= 2 -> send_authenticate_ntlmv1 (with_hmac P H) (with_state (rekey lm' nt' k' c) (StChallengeReceived n ch)) r
    = send_authenticate_ntlmv1 P (with_state c (StChallengeReceived n ch)) r).
  { intros L. destruct (EQ L) as [-> ->]. unfold send_authenticate_ntlmv1. cbn [rekey get_challenge with_state cl_state obind cl_nt_hash cl_lm_hash cl_level cl_domain cl_username].
    change (ntlmv1_compute_response (with_hmac P H)) with (ntlmv1_compute_response P).
    destruct (ntlmv1_compute_response P _ _ _ _ _ _) as [[[lm nt] sbk]|] eqn:C; [|reflexivity]. cbn [obind].
    assert (S : sbk = p_md4 P (cl_nt_hash c)).
    { unfold ntlmv1_compute_response in C. destruct (has_flag _ _).
      - destruct (desl _ _ _); [|discriminate C]. now injection C.
      - destruct (desl P (cl_nt_hash c) _); [|discriminate C]. cbn [obind] in C. destruct (negb _); cbn [obind] in C; [now injection C|].
        destruct (desl _ _ _); [|discriminate C]. now injection C. }
    unfold kxkey. destruct (negb (length (firstn 8 lm) =? 8)%nat) eqn:L8; [reflexivity|]. cbn [obind].
    change (p_hmac_md5 (with_hmac P H)) with H. subst sbk. rewrite E1; [reflexivity|exact L|lia]. }
  assert (V2 : 3 <= cl_level c <= 5 -> send_authenticate_ntlmv2 cfg (with_hmac P H) (with_state (rekey lm' nt' k' c) (StChallengeReceived n ch)) r
    = send_authenticate_ntlmv2 cfg P (with_state c (StChallengeReceived n ch)) r).
  { intros L. unfold send_authenticate_ntlmv2. cbn [rekey get_challenge get_negotiate with_state cl_state obind cl_ntlmv2_hash cl_domain cl_username].
    unfold ntlmv2_compute_response.
    set (T := match first_timestamp (ch_target_infos ch) with Some ts => Val ts | None => ft_now (e_clock r) end).
    assert (HT : T = match response_time ch r with Some t => Val t | None => Panic PExpect end).
    { unfold T, response_time. rewrite first_timestamp_some. destruct (first_some _ _); [reflexivity|].
      unfold ft_now. destruct (filetime_try_from _); reflexivity. }
    rewrite HT. clear T HT. pose proof (response_time_valid ch r) as HTV.
    destruct (response_time ch r) as [t|] eqn:Et; cbn [obind]; [|reflexivity].
    specialize (HTV t ltac:(apply Hc) eq_refl).
    rewrite ntv2_serialize by (assumption || apply Hc || apply Hr).
    destruct (av_strings_fit _ _); cbn [obind]; [|reflexivity]. rewrite v2_temp_eq. unfold hmac_md5.
    change (p_hmac_md5 (with_hmac P H)) with H. set (k2 := cl_ntlmv2_hash c) in *.
    destruct (E2 L t eq_refl) as [E3 K].
    rewrite (E3 (ch_server_challenge ch ++ v2_temp cfg t _ _)) by auto.
    rewrite (E3 (ch_server_challenge ch ++ e_client_challenge r)) by auto.
    fold (v2_nt_proof P k2 (ch_server_challenge ch) (v2_temp cfg t (e_client_challenge r) (ch_target_infos ch))).
    fold (proof_of cfg P k2 ch r t). rewrite (E3 (proof_of cfg P k2 ch r t)) by auto.
    change (encrypt_random_session_key (with_hmac P H)) with (encrypt_random_session_key P). rewrite encrypt_ok.
    pose proof (v2_draft_valid cfg P k2 (cl_username c) (cl_domain c) ch r t HP Hu Hd Hc Hr HTV) as VD.
    unfold session_key_of in K. unfold v2_draft, v2_kek, v2_session_base_key, encrypted, exported in VD. fold (proof_of cfg P k2 ch r t) in VD.
    destruct (key_exchange (ch_flags ch)); (eapply mic_agree; [exact Hn|exact Hc|reflexivity|exact VD|exact K]). }
  assert (L : cl_level c = 0 \/ cl_level c = 1 \/ cl_level c = 2 \/ cl_level c = 3 \/ cl_level c = 4 \/ cl_level c = 5 \/ 5 < cl_level c) by lia.
  destruct L as [L|[L|[L|[L|[L|[L|L]]]]]]; try (rewrite L; first [apply V1; lia|apply V2; lia]).
  clear - L. destruct (cl_level c) as [|[[[|[]|]|[|[]|]|]|[[|[]|]|[]|]|]]; try lia; reflexivity.
Qed.

Lemma not_ready_agree cfg P P' lm' nt' k' c r : (forall n ch, ~ ready (cl_state c) n ch) ->
  exists w, send_authenticate cfg P' (rekey lm' nt' k' c) r = Panic w /\ send_authenticate cfg P c r = Panic w.
Proof.
  intros H. assert (G : exists w, get_challenge c = Panic w /\ get_negotiate c = Panic w).
  { unfold get_challenge, get_negotiate. destruct (cl_state c) as [|n|n ch|n ch a]; eauto.
    - destruct (H n ch). now left.
    - destruct (H n ch). right. eauto. }
  destruct G as (w & G1 & G2). unfold send_authenticate, build_authenticate, send_authenticate_ntlmv1, send_authenticate_ntlmv2.
  change (get_challenge (rekey lm' nt' k' c)) with (get_challenge c). change (get_negotiate (rekey lm' nt' k' c)) with (get_negotiate c).
  change (cl_level (rekey lm' nt' k' c)) with (cl_level c).
  rewrite G1, G2. cbn [obind]. destruct (cl_level c) as [|[[[]|[]|]|[[]|[]|]|]]; cbn [obind]; eauto.
Qed.
Lemma send_negociate_rekey lm' nt' k' c : send_negociate (rekey lm' nt' k' c) =
  let! (b, c') := send_negociate c in Val (b, rekey lm' nt' k' c').
Proof.
  unfold send_negociate. change (negociate_message (rekey lm' nt' k' c)) with (negociate_message c).
  destruct (negociate_message c) as [m|]; [|reflexivity]. cbn [obind].
  destruct (negotiate_ser m []) as [[k buf]|]; [|reflexivity]. cbn [obind].
  destruct (slice buf 0 k); reflexivity.
Qed.
(** The states in which a reply can be asked for. *)
Lemma ready_accepts cfg P c h n ch : fresh c -> ready (cl_state (run cfg P c h)) n ch ->
  n = neg_message (cl_level c) (cl_domain c) /\ accepts h ch.
Proof.
  intros F R. assert (D : negotiable (cl_level c) (cl_domain c) \/ ~ negotiable (cl_level c) (cl_domain c)) by (unfold negotiable; lia).
  destruct D as [N|N].
  - destruct (run_states cfg P c F h N) as (H1 & H2 & H3).
    destruct (phase h) as [(U & _)|[(A & _)|(ch' & A & _)]].
    + rewrite (H1 U) in R. destruct R as [R|[a R]]; discriminate R.
    + rewrite (H2 A) in R. destruct R as [R|[a R]]; discriminate R.
    + destruct (H3 _ A) as [Q|[a Q]]; rewrite Q in R; destruct R as [R|[a' R]]; try discriminate R; injection R; intros; subst; auto.
  - rewrite (run_states_not cfg P c F h N) in R. destruct R as [R|[a R]]; discriminate R.
Qed.
Lemma accepts_typed h ch : Forall typed_call h -> accepts h ch -> valid_challenge ch.
Proof.
  intros H (h1 & h2 & h3 & -> & _). apply Forall_app in H as [_ H]. apply Forall_inv_tail in H.
  apply Forall_app in H as [_ H]. now apply Forall_inv in H.
Qed.

Lemma transcript_agree cfg P H lm' nt' k' c h : fresh c -> prims_ok P -> is_string (cl_username c) ->
  is_buffer 16 (cl_nt_hash c) -> is_buffer 16 (cl_lm_hash c) -> Forall typed_call h ->
  (cl_level c <= 2 -> lm' = cl_lm_hash c /\ nt' = cl_nt_hash c) ->
  (forall ch r, answered h ch r -> serves cfg P H (cl_level c) (cl_nt_hash c) (cl_ntlmv2_hash c) k' ch r) ->
  transcript cfg (with_hmac P H) (rekey lm' nt' k' c) h = transcript cfg P c h.
Proof.
  intros F HP Hu B1 B2 Hh EQ E.
  assert (G : forall h2 h1, h = h1 ++ h2 ->
    transcript cfg (with_hmac P H) (rekey lm' nt' k' (run cfg P c h1)) h2 = transcript cfg P (run cfg P c h1) h2).
  2:{ exact (G h [] eq_refl). }
  induction h2 as [|o h2 IH]; intros h1 Q; [reflexivity|]. cbn [transcript].
  assert (S : step cfg (with_hmac P H) (rekey lm' nt' k' (run cfg P c h1)) o
    = (rekey lm' nt' k' (fst (step cfg P (run cfg P c h1) o)), snd (step cfg P (run cfg P c h1) o))).
  { destruct o as [|ch'|r]; cbn [step fst snd].
    - rewrite send_negociate_rekey. destruct (send_negociate _) as [[b c']|]; reflexivity.
    - unfold recv_challenge. change (cl_state (rekey lm' nt' k' (run cfg P c h1))) with (cl_state (run cfg P c h1)).
      destruct (cl_state (run cfg P c h1)); reflexivity.
    - assert (D : (exists n ch, ready (cl_state (run cfg P c h1)) n ch) \/ forall n ch, ~ ready (cl_state (run cfg P c h1)) n ch).
      { unfold ready. destruct (cl_state (run cfg P c h1)) as [|n|n ch|n ch a].
        - right. intros n ch [R|[a R]]; discriminate R.
        - right. intros n' ch [R|[a R]]; discriminate R.
        - left. exists n, ch. now left.
        - left. exists n, ch. right. now exists a. }
      destruct D as [(n & ch & R)|N].
      2:{ destruct (not_ready_agree cfg P (with_hmac P H) lm' nt' k' _ r N) as (w & -> & ->). reflexivity. }
      destruct (ready_accepts _ _ _ _ _ _ F R) as [-> A]. rewrite (send_authenticate_ready _ _ _ _ _ _ R).
      assert (R' : ready (cl_state (rekey lm' nt' k' (run cfg P c h1))) (neg_message (cl_level c) (cl_domain c)) ch) by exact R.
      rewrite (send_authenticate_ready _ _ _ _ _ _ R'). clear R'.
      destruct (run_dress cfg P c h1) as (s & b & X). rewrite X. change (rekey lm' nt' k' (dress c s b)) with (dress (rekey lm' nt' k' c) s b). rewrite !reply_dress.
      assert (Y : reply cfg (with_hmac P H) (rekey lm' nt' k' c) (neg_message (cl_level c) (cl_domain c)) ch r = reply cfg P c (neg_message (cl_level c) (cl_domain c)) ch r).
      { rewrite Q in Hh. apply Forall_app in Hh as [T1 T2]. apply Forall_inv in T2.
        apply reply_agree; try assumption; [apply F|apply neg_message_valid, F|now apply accepts_typed in A|].
        apply E. exists h1, h2. split; [exact Q|exact A]. }
      rewrite Y. clear Y. destruct (reply cfg P c (neg_message (cl_level c) (cl_domain c)) ch r) as [a|]; cbn [obind]; [|reflexivity].
      destruct (authenticate_ser cfg a []) as [[k buf]|]; cbn [obind]; [|reflexivity]. unfold set_authenticated_state.
      change (cl_state (with_buffer (dress (rekey lm' nt' k' c) s b) buf)) with s. change (cl_state (with_buffer (dress c s b) buf)) with s.
      destruct s; reflexivity. }
  rewrite S. cbn [fst snd]. f_equal. rewrite <- run_snoc. apply IH. rewrite <- app_assoc. exact Q.
Qed.
Lemma rekey_id c : rekey (cl_lm_hash c) (cl_nt_hash c) (cl_ntlmv2_hash c) c = c.
Proof. now destruct c. Qed.

Lemma with_hmac_ok P H : prims_ok P -> (forall k m, is_buffer 16 (H k m)) -> prims_ok (with_hmac P H).
Proof.
  intros HP HB. constructor.
  - exact (ok_md4_len P HP).
  - exact (ok_md4_bytes P HP).
  - exact (ok_md5_len P HP).
  - exact (ok_md5_bytes P HP).
  - intros k m. apply HB.
  - intros k m. apply HB.
  - exact (ok_des_len P HP).
  - exact (ok_des_bytes P HP).
  - exact (ok_rc4_len P HP).
  - exact (ok_rc4_bytes P HP).
  - exact (ok_upper_ascii P HP).
  - exact (ok_upper_string P HP).
Qed.

(** ** C119 *)
(** Everything a client says, over any history, comes from HMAC-MD5 at the points listed:
    with another HMAC-MD5 that agrees there the same client is made, and every call returns
    the same. *)
Lemma C119_queries_lem : forall cfg P H e level user dom pw target c h, host_le cfg = true ->
  made cfg P e level user dom pw target c -> Forall typed_call h -> prims_ok (with_hmac P H) ->
  (forall k m, asks cfg P level user dom pw h k m -> H k m = p_hmac_md5 P k m) ->
  made cfg (with_hmac P H) e level user dom pw target c
  /\ transcript cfg (with_hmac P H) c h = transcript cfg P c h.
Proof.
  intros cfg P H e level user dom pw target c h HLE M Hh HP' E.
  pose proof (made_fresh _ _ _ _ _ _ _ _ _ M) as F.
  destruct (made_fields _ _ _ _ _ _ _ _ _ M) as (klm & ws & K & W & Q).
  destruct (C36_nt_hashes_lem cfg P pw user dom HLE) as [N1 N2].
  destruct (C36_nt_hashes_lem cfg (with_hmac P H) pw user dom HLE) as [N1' N2'].
  assert (N3 : NTOWFv2 (with_hmac P H) pw user dom = NTOWFv2 P pw user dom) by (apply E; left; now split).
  destruct M as (HP & He & Hu & Hd & Hp & M). split.
  - split; [exact HP'|]. do 4 (split; [assumption|]). rewrite Q. unfold new_with_domain, compute_ntlm_hashes.
    change (lmowfv1 (with_hmac P H)) with (lmowfv1 P). rewrite K. cbn [obind].
    change (get_workstation_name (with_hmac P H)) with (get_workstation_name P). rewrite W. cbn [obind].
    rewrite N2', N2, N3, N1', N1. reflexivity.
  - subst c. rewrite N2, N1 in *. rewrite <- (rekey_id (mkClient _ _ _ _ _ _ _ _ _ _ _)) at 1. apply transcript_agree; try assumption.
    + rewrite <- N1. now apply ntowfv1_buffer.
    + cbn [cl_lm_hash]. eapply lmowfv1_buffer; eassumption.
    + intros _. now split.
    + cbn [cl_level cl_nt_hash cl_ntlmv2_hash]. intros ch r A. split.
      * intros L x Hx. apply E. right. exists ch, r. split; [exact A|]. left. eauto 6.
      * intros L t T. split; intros m Hm; apply E; right; exists ch, r; (split; [exact A|]); right; (split; [exact L|]);
          exists t; (split; [exact T|]); [left|right]; now split.
Qed.
(** What a client of levels 3 to 5 has said tells nothing about the answer to a server
    challenge [sc] it was never given: every 16 bytes are the HMAC of [sc] and what follows
    it, under the NTLMv2 key of the account, in some world in which the same client said the
    same. *)
Lemma C119_unanswered_lem : forall cfg P e level user dom pw target c h sc x v, host_le cfg = true -> 3 <= level ->
  made cfg P e level user dom pw target c -> Forall typed_call h ->
  is_buffer 8 sc -> (forall ch r, answered h ch r -> ch_server_challenge ch <> sc) ->
  no_accident cfg P user dom pw h (sc ++ x) -> is_buffer 16 v ->
  exists H, made cfg (with_hmac P H) e level user dom pw target c
    /\ transcript cfg (with_hmac P H) c h = transcript cfg P c h
    /\ NTOWFv2 (with_hmac P H) pw user dom = NTOWFv2 P pw user dom
    /\ H (NTOWFv2 (with_hmac P H) pw user dom) (sc ++ x) = v.
Proof.
  intros cfg P e level user dom pw target c h sc x v HLE L M Hh [Hsc _] HA [A1 A2] [Hv1 Hv2].
  set (k2 := NTOWFv2 P pw user dom) in *. exists (changed_at P k2 (sc ++ x) v).
  assert (SAME : forall k m, ~ (k = k2 /\ m = sc ++ x) -> changed_at P k2 (sc ++ x) v k m = p_hmac_md5 P k m).
  { intros k m N. unfold changed_at. destruct (list_eq_dec _ k k2); [|reflexivity].
    destruct (list_eq_dec _ m (sc ++ x)); [|reflexivity]. destruct N. now split. }
  assert (HP' : prims_ok (with_hmac P (changed_at P k2 (sc ++ x) v))).
  { destruct M as (HP & _). apply with_hmac_ok; [exact HP|]. intros k m. unfold changed_at.
    destruct (list_eq_dec _ k k2); [|now apply hmac_buffer]. destruct (list_eq_dec _ m (sc ++ x)); [now split|now apply hmac_buffer]. }
  assert (E : forall k m, asks cfg P level user dom pw h k m -> changed_at P k2 (sc ++ x) v k m = p_hmac_md5 P k m).
  { intros k m [[-> ->]|(ch & r & A & Q)]; apply SAME; intros [N1 N2]; [now apply A1|].
    assert (V : valid_challenge ch).
    { destruct A as (h1 & h2 & -> & A). apply Forall_app in Hh as [T _]. now apply accepts_typed in A. }
    destruct V as (_ & _ & [V _] & _).
    assert (PRE : forall y, ch_server_challenge ch ++ y <> sc ++ x).
    { intros y Y. apply (HA _ _ A). apply (f_equal (firstn 8)) in Y. rewrite !firstn_app, V, Hsc, Nat.sub_diag, !firstn_O, !app_nil_r, !firstn_all2 in Y by lia. exact Y. }
    destruct Q as [(Q & _)|(_ & t & T & [[-> [ -> | [ -> | -> ]]]|[-> _]])]; try solve [lia|now apply PRE in N2].
    - now destruct (A2 _ _ _ A T) as [Z _].
    - now destruct (A2 _ _ _ A T) as [_ Z]. }
  destruct (C119_queries_lem cfg P _ e level user dom pw target c h HLE M Hh HP' E) as [R1 R2].
  assert (N3 : NTOWFv2 (with_hmac P (changed_at P k2 (sc ++ x) v)) pw user dom = k2) by (apply E; left; now split).
  split; [exact R1|]. split; [exact R2|]. split; [exact N3|]. rewrite N3. unfold changed_at.
  destruct (list_eq_dec _ k2 k2) as [_|N]; [|now destruct N]. destruct (list_eq_dec _ (sc ++ x) (sc ++ x)) as [_|N]; [reflexivity|now destruct N].
Qed.

(** What a client of levels 3 to 5 has said tells neither its password nor its NTLMv2 key:
    whatever password and whatever 16 bytes for the key, in some world the client with this
    password has this key and said the same. *)
Lemma C119_hidden_lem : forall cfg P e level user dom pw pw' target c h k, host_le cfg = true -> 3 <= level ->
  made cfg P e level user dom pw target c -> Forall typed_call h ->
  is_string pw' -> lm_hashable P pw' -> is_buffer 16 k ->
  key_free cfg P user dom pw pw' h k ->
  exists H c', made cfg (with_hmac P H) e level user dom pw' target c'
    /\ NTOWFv2 (with_hmac P H) pw' user dom = k
    /\ transcript cfg (with_hmac P H) c' h = transcript cfg P c h.
Proof.
  intros cfg P e level user dom pw pw' target c h k HLE L M Hh Hp' HL Hk [A1 A2].
  pose proof (made_fresh _ _ _ _ _ _ _ _ _ M) as F.
  destruct (made_fields _ _ _ _ _ _ _ _ _ M) as (klm & ws & K & W & Q).
  destruct (C36_nt_hashes_lem cfg P pw user dom HLE) as [N1 N2].
  apply lmowfv1_val in HL as [klm' K'].
  set (k2 := NTOWFv2 P pw user dom) in *. set (nt' := NTOWFv1 P pw') in *. set (text := utf16le (to_uppercase P user ++ dom)).
  set (H := fun a m => if list_eq_dec N.eq_dec a nt' then if list_eq_dec N.eq_dec m text then k else p_hmac_md5 P a m
                       else if list_eq_dec N.eq_dec a k then p_hmac_md5 P k2 m else p_hmac_md5 P a m).
  assert (Hnt : H nt' text = k).
  { unfold H. destruct (list_eq_dec _ nt' nt') as [_|N]; [|now destruct N]. now destruct (list_eq_dec _ text text) as [_|N]; [|destruct N]. }
  assert (Hk' : forall m, H k m = p_hmac_md5 P k2 m).
  { intros m. unfold H. destruct (list_eq_dec _ k nt') as [E|_]; [now destruct A1|]. now destruct (list_eq_dec _ k k) as [_|N]; [|destruct N]. }
  assert (Ho : forall a m, a <> nt' -> a <> k -> H a m = p_hmac_md5 P a m).
  { intros a m X Y. unfold H. destruct (list_eq_dec _ a nt'); [contradiction|]. destruct (list_eq_dec _ a k); [contradiction|reflexivity]. }
  destruct (C36_nt_hashes_lem cfg (with_hmac P H) pw' user dom HLE) as [N1' N2'].
  assert (N3 : NTOWFv2 (with_hmac P H) pw' user dom = k) by exact Hnt.
  destruct M as (HP & He & Hu & Hd & Hp & M).
  assert (HP' : prims_ok (with_hmac P H)).
  { apply with_hmac_ok; [exact HP|]. intros a m. unfold H. destruct (list_eq_dec _ a nt').
    - destruct (list_eq_dec _ m text); [exact Hk|now apply hmac_buffer].
    - destruct (list_eq_dec _ a k); now apply hmac_buffer. }
  exists H, (mkClient StNew user klm' nt' k dom ws target [] None level). split; [|split; [exact N3|]].
  - split; [exact HP'|]. do 4 (split; [assumption|]). unfold new_with_domain, compute_ntlm_hashes.
    change (lmowfv1 (with_hmac P H)) with (lmowfv1 P). rewrite K'. cbn [obind].
    change (get_workstation_name (with_hmac P H)) with (get_workstation_name P). rewrite W. cbn [obind].
    rewrite N2', N3, N1'. reflexivity.
  - subst c. rewrite N2, N1 in *. set (c := mkClient _ _ _ _ k2 _ _ _ _ _ _) in *.
    change (mkClient StNew user klm' nt' k dom ws target [] None level) with (rekey klm' nt' k c).
    apply transcript_agree; try assumption.
    + change (cl_nt_hash c) with (NTOWFv1 P pw). rewrite <- N1. now apply ntowfv1_buffer.
    + change (cl_lm_hash c) with klm. eapply lmowfv1_buffer; eassumption.
    + change (cl_level c) with level. lia.
    + change (cl_level c) with level. change (cl_nt_hash c) with (NTOWFv1 P pw). change (cl_ntlmv2_hash c) with k2. intros ch r A. split; [lia|]. intros _ t T. split.
      * intros m _. apply Hk'.
      * intros m _. destruct (A2 _ _ _ A T) as [X Y]. now apply Ho.
Qed.

Lemma answered_snoc h o ch r : answered (h ++ [o]) ch r <-> answered h ch r \/ (o = OpAuthenticate r /\ accepts h ch).
Proof.
  split.
  - intros (h1 & h2 & E & A). destruct (snoc_split _ _ _ _ _ E) as [(-> & -> & ->)|(b & -> & ->)].
    + right. now split.
    + left. exists h1, b. now split.
  - intros [(h1 & h2 & -> & A)|[-> A]].
    + exists h1, (h2 ++ [o]). now rewrite <- app_assoc.
    + exists h, []. now split.
Qed.
Lemma two_answered ch r : answered two_replies ch r -> (ch = sealed_challenge \/ ch = other_challenge) /\ r = sample_entropy.
Proof.
  intros A. unfold two_replies in A. change (answered (((((([] ++ [OpNegociate]) ++ [OpRecvChallenge sealed_challenge]) ++ [OpAuthenticate sample_entropy])
    ++ [OpNegociate]) ++ [OpRecvChallenge other_challenge]) ++ [OpAuthenticate sample_entropy]) ch r) in A.
  rewrite !answered_snoc, !accepts_snoc in A.
  assert (N : ~ answered [] ch r). { intros ([|? ?] & ? & E & _); discriminate E. }
  pose proof (not_accepts_nil ch).
  decompose [or and] A; clear A; try contradiction; try discriminate;
    match goal with E : OpAuthenticate _ = OpAuthenticate _ |- _ => injection E as <- end; split; auto.
Qed.
(** Two replies were sent; the answer to a third server challenge can be any 16 bytes; the
    answers to the first two cannot.  Another password, with the key 0707...07, could have sent
    them. *)
Example C119_ex_lem :
  (exists target, made cfg_debug mixing_prims host_env 3 str_User str_Domain str_Password target (mixing_client 3 str_Password))
  /\ Forall typed_call two_replies
  /\ answered two_replies sealed_challenge sample_entropy /\ answered two_replies other_challenge sample_entropy
  /\ (forall ch r, answered two_replies ch r -> ch_server_challenge ch <> third_nonce)
  /\ no_accident cfg_debug mixing_prims str_User str_Domain str_Password two_replies (third_nonce ++ e_client_challenge sample_entropy)
  /\ (lm_hashable mixing_prims str_Secret /\ key_free cfg_debug mixing_prims str_User str_Domain str_Password str_Secret two_replies (repeat 7 16))
  /\ (map (fun o => match o with OutBytes b => len b | _ => 0 end) said, said_with (third_nonce ++ e_client_challenge sample_entropy) (zeros 16))
     = ([38; 0; 306; 38; 0; 184], said)
  /\ said_with (ch_server_challenge sealed_challenge ++ e_client_challenge sample_entropy) (zeros 16) <> said
  /\ said_with (ch_server_challenge other_challenge ++ e_client_challenge sample_entropy) (zeros 16) <> said.
Proof.
  split. { exists str_target. split; [exact mixing_ok|]. repeat (split; [closed_valid|]). vm_compute. reflexivity. }
  split. { repeat constructor; try exact I; try exact sealed_valid; try exact sample_entropy_ok; closed_valid. }
  split. { exists [OpNegociate; OpRecvChallenge sealed_challenge], [OpNegociate; OpRecvChallenge other_challenge; OpAuthenticate sample_entropy].
    split; [reflexivity|]. exists [], [], []. repeat constructor. }
  split. { exists [OpNegociate; OpRecvChallenge sealed_challenge; OpAuthenticate sample_entropy; OpNegociate; OpRecvChallenge other_challenge], [].
    split; [reflexivity|]. exists [OpNegociate; OpRecvChallenge sealed_challenge; OpAuthenticate sample_entropy], [], []. repeat constructor. }
  split. { intros ch r A. apply two_answered in A as [[ -> | -> ] _]; discriminate. }
  split. { split; [vm_compute; discriminate|]. intros ch r t A E. apply two_answered in A as [A ->].
    destruct A as [ -> | -> ]; vm_compute in E; injection E as <-; split; vm_compute; discriminate. }
  split. { split; [apply lmowfv1_val; eexists; vm_compute; reflexivity|].
    split; [vm_compute; discriminate|]. intros ch r t A E. apply two_answered in A as [A ->].
    destruct A as [ -> | -> ]; vm_compute in E; injection E as <-; split; vm_compute; discriminate. }
  split. { vm_compute. reflexivity. }
  split; vm_compute; discriminate.
Qed.
