(** Which bytes of a reply depend on the password. *)
From Coq Require Import ZifyBool ZifyNat ZifyN.
From Verif Require Import Base Nom Unicode Wire Structures Prims Messages Crypto Client Spec SpecBuild SpecCrypto SpecClient Lib Encode Decode RoundTrip Parse Samples FactsEncode FactsDecode FactsBuild DesKey RealPrims FactsCrypto SamplesClient History Reply FactsClient FactsEndian FactsEffort SamplesLabour SamplesLmv2 SamplesTiming FactsLmv2 FactsTiming SpecPlaces SamplesPlaces.

Ltac Zify.zify_post_hook ::= Z.div_mod_to_equations.

Lemma apart_same b i : ~ apart b b i.
Proof. intros H. now apply H. Qed.
Lemma apart_bound b b' i : len b = len b' -> apart b b' i -> i < len b.
Proof.
  intros L H. destruct (N.lt_ge_cases i (len b)) as [G|G]; [exact G|]. destruct H. unfold len in *. rewrite !nth_overflow by lia. reflexivity.
Qed.
Lemma apart_app a a' b b' i : len a = len a' -> apart (a ++ b) (a' ++ b') i ->
  (i < len a /\ apart a a' i) \/ (len a <= i /\ apart b b' (i - len a)).
Proof.
  intros L H. unfold apart, len in *. destruct (N.lt_ge_cases i (N.of_nat (length a))) as [G|G].
  - left. split; [exact G|]. now rewrite !app_nth1 in H by lia.
  - right. split; [exact G|]. rewrite !app_nth2 in H by lia.
    replace (N.to_nat (i - N.of_nat (length a))) with (N.to_nat i - length a)%nat by lia.
    replace (length a') with (length a) in H by lia. exact H.
Qed.
Lemma apart_same_app a b b' i : apart (a ++ b) (a ++ b') i -> len a <= i /\ apart b b' (i - len a).
Proof. intros H. apply apart_app in H as [[_ H]|H]; [now apply apart_same in H|exact H|reflexivity]. Qed.

(** Replies as pieces: header, MIC, LM response, NT response, names, key *)
Definition pieces (head mic lm nt names key : bytes) : bytes := head ++ mic ++ lm ++ nt ++ names ++ key.
Lemma message_pieces cfg a lm nt key : a_version a = None -> len (a_mic a) = 16 -> a_lm a = Some lm -> a_nt a = Some nt -> a_session_key a = Some key ->
  authenticate_bytes cfg a
  = pieces (NTLMSSP ++ le32 3 ++ concat (descriptors 80 (authenticate_fields cfg a)) ++ le32 (a_flags a)) (a_mic a) (lm_bytes lm) (nt_bytes cfg nt)
      (content (opt_map utf16le (a_domain a)) ++ content (opt_map utf16le (a_user a)) ++ content (opt_map utf16le (a_workstation a))) key.
Proof.
  intros V M L N K. unfold authenticate_bytes, pieces. rewrite V, M. cbn [opt_version_bytes app]. change (64 + len [] + 16) with 80.
  unfold contents, authenticate_fields at 2. rewrite L, N, K. cbn [opt_map flat_map content]. rewrite app_nil_r, !app_assoc. reflexivity.
Qed.
Lemma head_len cfg a : len (NTLMSSP ++ le32 3 ++ concat (descriptors 80 (authenticate_fields cfg a)) ++ le32 (a_flags a)) = 64.
Proof. rewrite !len_app, len_concat_descriptors. reflexivity. Qed.
Lemma apart_pieces head mic mic' lm lm' nt nt' names key key' i : len mic = len mic' -> len lm = len lm' -> len nt = len nt' -> len key = len key' ->
  apart (pieces head mic lm nt names key) (pieces head mic' lm' nt' names key') i ->
  (apart mic mic' (i - len head) /\ within i (len head) (len mic))
  \/ (apart lm lm' (i - (len head + len mic)) /\ within i (len head + len mic) (len lm))
  \/ (apart nt nt' (i - (len head + len mic + len lm)) /\ within i (len head + len mic + len lm) (len nt))
  \/ (apart key key' (i - (len head + len mic + len lm + len nt + len names)) /\ within i (len head + len mic + len lm + len nt + len names) (len key)).
Proof.
  intros L1 L2 L3 L4 H. unfold pieces in H. unfold within.
  apply apart_same_app in H as [G H]. apply apart_app in H as [[B H]|[G1 H]]; [left|right|exact L1]. { split; [exact H|lia]. }
  apply apart_app in H as [[B H]|[G2 H]]; [left|right|exact L2].
  { replace (i - (len head + len mic)) with (i - len head - len mic) by lia. split; [exact H|lia]. }
  apply apart_app in H as [[B H]|[G3 H]]; [left|right|exact L3].
  { replace (i - (len head + len mic + len lm)) with (i - len head - len mic - len lm) by lia. split; [exact H|lia]. }
  apply apart_same_app in H as [G4 H]. pose proof (apart_bound _ _ _ L4 H) as B.
  replace (i - (len head + len mic + len lm + len nt + len names)) with (i - len head - len mic - len lm - len nt - len names) by lia. split; [exact H|lia].
Qed.
Lemma same_head cfg a a' : map (opt_map len) (authenticate_fields cfg a) = map (opt_map len) (authenticate_fields cfg a') -> a_flags a = a_flags a' ->
  NTLMSSP ++ le32 3 ++ concat (descriptors 80 (authenticate_fields cfg a)) ++ le32 (a_flags a)
  = NTLMSSP ++ le32 3 ++ concat (descriptors 80 (authenticate_fields cfg a')) ++ le32 (a_flags a').
Proof. intros E F. destruct (same_descriptors _ _ E) as [D _]. now rewrite D, F. Qed.
Lemma pieces_len head mic lm nt names key : len (pieces head mic lm nt names key) = len head + len mic + len lm + len nt + len names + len key.
Proof. unfold pieces. rewrite !len_app. lia. Qed.

(** ** C117 *)
(** At levels 3 to 5 replies that differ in the password only have the same length and
    differ at most in the MIC, in the first 16 bytes of the LM response and, with key
    exchange, in the encrypted session key. *)
Lemma C117_v2_lem : forall cfg P e level user dom pw pw' ch r b b', 3 <= level ->
  replies cfg P e level user dom pw ch r b -> replies cfg P e level user dom pw' ch r b' ->
  len b = len b'
  /\ forall i, apart b b' i -> within i 64 16 \/ within i 80 16 \/ (key_exchange (ch_flags ch) = true /\ within i (len b - 16) 16).
Proof.
  intros cfg P e level user dom pw pw' ch r b b' L H H'. destruct (replies_workstation _ _ _ _ _ _ _ _ _ _ H) as [ws W].
  destruct (replies_v2 _ _ _ _ _ _ _ _ _ _ ws H L W) as (HP & _ & Hr & _ & _ & t & T & _ & _ & _ & E).
  destruct (replies_v2 _ _ _ _ _ _ _ _ _ _ ws H' L W) as (_ & _ & _ & _ & _ & t' & T' & _ & _ & _ & E').
  rewrite T in T'. injection T' as <-. revert E E'.
  set (k := ntowfv2 cfg P user (ntowfv1 cfg P pw) dom). set (k' := ntowfv2 cfg P user (ntowfv1 cfg P pw') dom).
  set (a := v2_message cfg P k user dom ws (neg_message level dom) ch r t). set (a' := v2_message cfg P k' user dom ws (neg_message level dom) ch r t).
  intros -> ->.
  assert (HM : forall key i, len (p_hmac_md5 P key i) = 16) by (intros key i; apply (len_buffer 16), hmac_buffer, HP).
  assert (HE : forall kek, len (encrypted P (ch_flags ch) kek (e_session_key r)) = 16) by (intros kek; apply (len_buffer 16), encrypted_buffer; [exact HP|apply Hr]).
  assert (C8 : len (e_client_challenge r) = 8) by (apply (len_buffer 8), Hr).
  assert (Hd : map (opt_map len) (authenticate_fields cfg a) = map (opt_map len) (authenticate_fields cfg a')).
  { unfold a, a', v2_message, v2_draft, authenticate_fields.
    cbn [a_lm a_nt a_domain a_user a_workstation a_session_key with_flags with_workstation with_mic opt_map map lm_bytes].
    now rewrite !len_app, !HM, !HE. }
  rewrite (message_pieces cfg a _ _ _ eq_refl (HM _ _) eq_refl eq_refl eq_refl), (message_pieces cfg a' _ _ _ eq_refl (HM _ _) eq_refl eq_refl eq_refl).
  rewrite <- (same_head cfg a a' Hd eq_refl).
  set (head := NTLMSSP ++ _). assert (LH : len head = 64) by apply head_len.
  change (a_domain a') with (a_domain a). change (a_user a') with (a_user a). change (a_workstation a') with (a_workstation a).
  set (names := content (opt_map utf16le (a_domain a)) ++ _).
  cbn [lm_bytes]. split.
  - rewrite !pieces_len. unfold a, a', v2_message. cbn [a_mic with_flags with_workstation with_mic]. rewrite !len_app, !HM, !HE. reflexivity.
  - intros i D. rewrite pieces_len.
    assert (LK : len (lm_bytes (LmV2 (p_hmac_md5 P k (ch_server_challenge ch ++ e_client_challenge r)) (e_client_challenge r))) = 24)
      by (cbn [lm_bytes]; rewrite len_app, HM, C8; reflexivity). cbn [lm_bytes] in LK.
    apply apart_pieces in D.
    + unfold within in *. rewrite LK, LH, HE in *. replace (len (a_mic a)) with 16 in * by (symmetry; apply HM).
      destruct D as [[_ D]|[[D G]|[[D _]|[D G]]]].
      * left. exact D.
      * right. left. apply apart_app in D as [[B _]|[_ D]]; [|now apply apart_same in D|now rewrite !HM].
        rewrite HM in B. lia.
      * now apply apart_same in D.
      * right. right. split; [|lia]. revert D. unfold encrypted. destruct (key_exchange (ch_flags ch)); [reflexivity|]. intros D. now apply apart_same in D.
    + transitivity 16; [apply HM|symmetry; apply HM].
    + now rewrite !len_app, !HM.
    + reflexivity.
    + now rewrite !HE.
Qed.

(** At levels 0 to 2 they differ at most in the LM response, unless the challenge asks for
    extended session security, in the NT response and, with key exchange, in the encrypted
    session key. *)
Lemma C117_v1_lem : forall cfg P e level user dom pw pw' ch r b b', level <= 2 ->
  replies cfg P e level user dom pw ch r b -> replies cfg P e level user dom pw' ch r b' ->
  len b = len b'
  /\ forall i, apart b b' i ->
     (ESS (ch_flags ch) = false /\ within i 80 24) \/ within i 104 24 \/ (key_exchange (ch_flags ch) = true /\ within i (len b - 16) 16).
Proof.
  intros cfg P e level user dom pw pw' ch r b b' L H H'. destruct (replies_workstation _ _ _ _ _ _ _ _ _ _ H) as [ws W].
  destruct (replies_lm _ _ _ _ _ _ _ _ _ _ H) as [klm K]. destruct (replies_lm _ _ _ _ _ _ _ _ _ _ H') as [klm' K'].
  destruct (replies_v1 _ _ _ _ _ _ _ _ _ _ ws klm H L W K) as (HP & _ & Hr & (V1 & V2 & _ & _ & _ & V3 & _) & _ & E).
  destruct (replies_v1 _ _ _ _ _ _ _ _ _ _ ws klm' H' L W K') as (_ & _ & _ & (V1' & V2' & _ & _ & _ & V3' & _) & _ & E').
  revert E E' V1 V2 V3 V1' V2' V3'.
  set (knt := ntowfv1 cfg P pw). set (knt' := ntowfv1 cfg P pw').
  set (a := v1_message P level knt klm user dom ws ch r). set (a' := v1_message P level knt' klm' user dom ws ch r).
  intros -> -> V1 V2 V3 V1' V2' V3'.
  cbn [a a' v1_message a_lm a_nt a_session_key valid_opt valid_lm valid_nt] in V1, V2, V3, V1', V2', V3'.
  apply len_buffer in V1, V2, V3, V1', V2', V3'.
  assert (Hd : map (opt_map len) (authenticate_fields cfg a) = map (opt_map len) (authenticate_fields cfg a')).
  { unfold a, a', v1_message, authenticate_fields.
    cbn [a_lm a_nt a_domain a_user a_workstation a_session_key opt_map map lm_bytes nt_bytes].
    now rewrite V1, V2, V3, V1', V2', V3'. }
  rewrite (message_pieces cfg a _ _ _ eq_refl eq_refl eq_refl eq_refl eq_refl), (message_pieces cfg a' _ _ _ eq_refl eq_refl eq_refl eq_refl eq_refl).
  rewrite <- (same_head cfg a a' Hd eq_refl).
  set (head := NTLMSSP ++ _). assert (LH : len head = 64) by apply head_len.
  change (a_domain a') with (a_domain a). change (a_user a') with (a_user a). change (a_workstation a') with (a_workstation a).
  set (names := content (opt_map utf16le (a_domain a)) ++ _).
  cbn [lm_bytes nt_bytes]. split.
  - rewrite !pieces_len. rewrite V1, V2, V3, V1', V2', V3'. reflexivity.
  - intros i D. rewrite pieces_len.
    apply apart_pieces in D.
    + unfold within in *. rewrite V1, V2, V3, LH in *. change (len (a_mic a)) with 16 in *.
      destruct D as [[D _]|[[D G]|[[_ G]|[D G]]]].
      * now apply apart_same in D.
      * left. split; [|lia]. revert D. unfold v1_lm, v1_lm_response. destruct (ESS (ch_flags ch)); [|reflexivity]. intros D. now apply apart_same in D.
      * right. left. lia.
      * right. right. split; [|lia]. revert D. unfold encrypted. destruct (key_exchange (ch_flags ch)); [reflexivity|]. intros D. now apply apart_same in D.
    + reflexivity.
    + now rewrite V1, V1'.
    + now rewrite V2, V2'.
    + now rewrite V3, V3'.
Qed.

Lemma fit_length n b : length (fit n b) = n.
Proof. unfold fit. rewrite firstn_length, app_length. unfold zeros. rewrite repeat_length. lia. Qed.
Lemma fit_bytes n b : is_bytes (fit n b).
Proof.
  unfold fit. apply Forall_firstn, Forall_app. split; [|apply zeros_buffer]. apply Forall_forall. intros x Hx. apply in_map_iff in Hx as (y & <- & _).
  unfold is_u8. apply N.mod_lt. discriminate.
Qed.
Lemma mixing_ok : prims_ok mixing_prims.
Proof.
  constructor; intros; try solve [apply fit_length|apply fit_bytes].
  - now apply (ok_upper_ascii _ head_ok).
  - now apply (ok_upper_string _ head_ok).
Qed.
Lemma mixing_replies : forall level pw ch, is_string pw -> valid_challenge ch ->
  new_with_domain cfg_debug mixing_prims host_env level str_User str_Domain pw str_target = Val (mixing_client level pw) ->
  answer cfg_debug mixing_prims (mixing_client level pw) (sample_history ch) (OpAuthenticate sample_entropy) = OutBytes (mixing_reply level pw ch) ->
  replies cfg_debug mixing_prims host_env level str_User str_Domain pw ch sample_entropy (mixing_reply level pw ch).
Proof.
  intros level pw ch Hp Hv E A. exists str_target, (mixing_client level pw), (sample_history ch).
  split. { split; [exact mixing_ok|]. split; [closed_valid|]. split; [closed_valid|]. split; [closed_valid|]. now split. }
  split; [exact Hv|]. split; [exact sample_entropy_ok|]. split; [apply sample_accepts|exact A].
Qed.

(** With primitives that mix their keys in, two passwords make replies that differ in each
    of these places. *)
Example C117_ex_lem :
  Forall (fun level => Forall (fun ch => Forall (fun pw =>
    replies cfg_debug mixing_prims host_env level str_User str_Domain pw ch sample_entropy (mixing_reply level pw ch))
    [str_Password; str_Secret]) [sealed_challenge; old_challenge]) [0; 1; 3]
  /\ (key_exchange (ch_flags sealed_challenge), key_exchange (ch_flags old_challenge)) = (true, false)
  /\ (ESS (ch_flags sealed_challenge), ESS (ch_flags old_challenge)) = (true, false)
  /\ let seen level ch := let b := mixing_reply level str_Password ch in let b' := mixing_reply level str_Secret ch in (len b, differences 0 b b') in
     seen 1 sealed_challenge = (180, [104; 105; 107; 109; 111; 113; 114; 115; 116; 117; 118; 120; 164; 166; 168; 170; 172; 174; 176; 178])
  /\ seen 0 old_challenge = (180, [80; 81; 82; 83; 85; 86; 87; 88; 89; 104; 105; 107; 109; 111; 113; 114; 115; 116; 117; 118; 120])
  /\ seen 3 sealed_challenge = (306, [80; 82; 84; 86; 88; 90; 92; 94; 290; 292; 294; 296; 298; 300; 302; 304])
  /\ seen 3 old_challenge = (184, [64; 66; 68; 70; 72; 74; 76; 78; 80; 82; 84; 86; 88; 90; 92; 94]).
Proof.
  split. { repeat constructor; apply mixing_replies; solve [closed_valid|exact sealed_valid|exact old_valid|vm_compute; reflexivity]. }
  repeat split; vm_compute; reflexivity.
Qed.
